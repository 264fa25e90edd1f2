(** * TestsParser: the expectations of the repository's parser tests, run on the model

    These are tests, not proofs.  They were translated mechanically from
    /repo/test/parser_test.rb (the [NatalieParser] branches; forms
    [expect(parse(code)).must_equal sexp] and [must_raise SyntaxError]) and from
    /repo/test/test_ruby_parser.rb (the tests that are not skipped; forms
    [assert_parse rb, pt] and [assert_parse_error rb]).  The number is the line of
    the expectation, or of the test method.  Line numbers are compared where the
    second file gives them ([sl]).  Not compared: float values, error messages,
    encodings; and, as Ruby's [==] does, a rational inside a complex literal is not
    told from its value. *)
From Coq Require Import Strings.String NArith ZArith Bool List.
From Verif Require Import Base Token LexModel Node ParserBase ParserModel Sexp.
Import ListNotations.
Open Scope N_scope.

Definition s (l : list sexp) : sexp := Sexp 0 0 None l.
Definition sl (line : nat) (l : list sexp) : sexp := Sexp line 0 None l.

(** Actual against expected value. *)
Fixpoint agrees (x y : sexp) : bool :=
  match x, y with
  | SNil, SNil | STrue, STrue | SFalse, SFalse => true
  | SSym a, SSym b | SStr a, SStr b | SBig a, SBig b => str_eqb a b
  | SInt a, SInt b => Z.eqb a b
  | SFloat _ _, SFloat _ _ => true
  | SRange a b c, SRange a' b' c' => Z.eqb a a' && Z.eqb b b' && Bool.eqb c c'
  | SRegexp a o, SRegexp b p => str_eqb a b && (o =? p)
  | SComplex a, SComplex b | SRational a, SRational b => agrees a b
  | Sexp n _ _ l, Sexp k _ _ m =>
      (Nat.eqb k 0 || Nat.eqb n k) &&
      (fix all l m :=
         match l, m with
         | [], [] => true
         | a :: l, b :: m => agrees a b && all l m
         | _, _ => false
         end) l m
  | _, _ => false
  end.

Definition passes (t : N * str * option sexp) : bool :=
  match t with
  | (_, src, expected) =>
      match parse 5000 (s2l "(string)") src, expected with
      | Parsed x, Some e => agrees x e
      | SyntaxError _, None => true
      | _, _ => false
      end
  end.

(** /repo/test/parser_test.rb, lines 41-247. *)
Definition parser_test_0 : list (N * str * option sexp) := [
  (41, (s2l ""), Some (s [(SSym (s2l "block"))]));
  (48, (s2l "()"), Some (s [(SSym (s2l "nil"))]));
  (52, (s2l "x = (1 + 1; 3)"), Some (s [(SSym (s2l "lasgn")); (SSym (s2l "x")); (s [(SSym (s2l "block")); (s [(SSym (s2l "call")); (s [(SSym (s2l "lit")); (SInt (1))]); (SSym (s2l "+")); (s [(SSym (s2l "lit")); (SInt (1))])]); (s [(SSym (s2l "lit")); (SInt (3))])])]));
  (53, [120; 32; 61; 32; 40; 49; 32; 43; 32; 49; 10; 51; 41]%N, Some (s [(SSym (s2l "lasgn")); (SSym (s2l "x")); (s [(SSym (s2l "block")); (s [(SSym (s2l "call")); (s [(SSym (s2l "lit")); (SInt (1))]); (SSym (s2l "+")); (s [(SSym (s2l "lit")); (SInt (1))])]); (s [(SSym (s2l "lit")); (SInt (3))])])]));
  (54, [102; 111; 111; 32; 40; 98; 97; 114; 32; 100; 111; 10; 32; 49; 10; 32; 101; 110; 100; 41; 46; 110; 101; 119]%N, Some (s [(SSym (s2l "call")); SNil; (SSym (s2l "foo")); (s [(SSym (s2l "call")); (s [(SSym (s2l "iter")); (s [(SSym (s2l "call")); SNil; (SSym (s2l "bar"))]); (SInt (0)); (s [(SSym (s2l "lit")); (SInt (1))])]); (SSym (s2l "new"))])]));
  (58, [102; 111; 111; 92; 10; 49]%N, Some (s [(SSym (s2l "call")); SNil; (SSym (s2l "foo")); (s [(SSym (s2l "lit")); (SInt (1))])]));
  (59, [102; 111; 111; 92; 32; 32; 32; 32; 32; 10; 49]%N, None);
  (63, (s2l "100000000000000000000"), Some (s [(SSym (s2l "lit")); (SBig (s2l "100000000000000000000"))]));
  (64, (s2l "-100000000000000000000"), Some (s [(SSym (s2l "lit")); (SBig (s2l "-100000000000000000000"))]));
  (68, (s2l "1"), Some (s [(SSym (s2l "lit")); (SInt (1))]));
  (69, (s2l " 1234"), Some (s [(SSym (s2l "lit")); (SInt (1234))]));
  (70, (s2l "9223372036854775808"), Some (s [(SSym (s2l "lit")); (SBig (s2l "9223372036854775808"))]));
  (71, (s2l "-9223372036854775808"), Some (s [(SSym (s2l "lit")); (SBig (s2l "-9223372036854775808"))]));
  (75, (s2l "1.5 "), Some (s [(SSym (s2l "lit")); (SFloat false [])]));
  (76, (s2l "-1"), Some (s [(SSym (s2l "lit")); (SInt (-1))]));
  (77, (s2l "-1.5"), Some (s [(SSym (s2l "lit")); (SFloat false [])]));
  (81, (s2l "3i"), Some (s [(SSym (s2l "lit")); (SComplex (SInt (3)))]));
  (82, (s2l "3r"), Some (s [(SSym (s2l "lit")); (SRational (SInt (3)))]));
  (83, (s2l "3ri"), Some (s [(SSym (s2l "lit")); (SComplex (SInt (3)))]));
  (84, (s2l "0d3i"), Some (s [(SSym (s2l "lit")); (SComplex (SInt (3)))]));
  (85, (s2l "0d3r"), Some (s [(SSym (s2l "lit")); (SRational (SInt (3)))]));
  (86, (s2l "0d3ri"), Some (s [(SSym (s2l "lit")); (SComplex (SInt (3)))]));
  (87, (s2l "0o3i"), Some (s [(SSym (s2l "lit")); (SComplex (SInt (3)))]));
  (88, (s2l "0o3r"), Some (s [(SSym (s2l "lit")); (SRational (SInt (3)))]));
  (89, (s2l "0o3ri"), Some (s [(SSym (s2l "lit")); (SComplex (SInt (3)))]));
  (90, (s2l "0x3i"), Some (s [(SSym (s2l "lit")); (SComplex (SInt (3)))]));
  (91, (s2l "0x3r"), Some (s [(SSym (s2l "lit")); (SRational (SInt (3)))]));
  (92, (s2l "0x3ri"), Some (s [(SSym (s2l "lit")); (SComplex (SInt (3)))]));
  (93, (s2l "0b11i"), Some (s [(SSym (s2l "lit")); (SComplex (SInt (3)))]));
  (94, (s2l "0b11r"), Some (s [(SSym (s2l "lit")); (SRational (SInt (3)))]));
  (95, (s2l "0b11ri"), Some (s [(SSym (s2l "lit")); (SComplex (SInt (3)))]));
  (96, (s2l "1.1i"), Some (s [(SSym (s2l "lit")); (SComplex (SFloat false []))]));
  (97, (s2l "1.1r"), Some (s [(SSym (s2l "lit")); (SRational (SFloat false []))]));
  (98, (s2l "1.1ri"), Some (s [(SSym (s2l "lit")); (SComplex (SFloat false []))]));
  (99, (s2l "100000000000000000000i"), Some (s [(SSym (s2l "lit")); (SComplex (SBig (s2l "100000000000000000000")))]));
  (100, (s2l "100000000000000000000r"), Some (s [(SSym (s2l "lit")); (SRational (SBig (s2l "100000000000000000000")))]));
  (101, (s2l "100000000000000000000ri"), Some (s [(SSym (s2l "lit")); (SComplex (SBig (s2l "100000000000000000000")))]));
  (105, (s2l "-foo.odd?"), Some (s [(SSym (s2l "call")); (s [(SSym (s2l "call")); (s [(SSym (s2l "call")); SNil; (SSym (s2l "foo"))]); (SSym (s2l "odd?"))]); (SSym (s2l "-@"))]));
  (106, (s2l "-2.odd?"), Some (s [(SSym (s2l "call")); (s [(SSym (s2l "lit")); (SInt (-2))]); (SSym (s2l "odd?"))]));
  (107, (s2l "+2.even?"), Some (s [(SSym (s2l "call")); (s [(SSym (s2l "lit")); (SInt (2))]); (SSym (s2l "even?"))]));
  (108, (s2l "-(2*8)"), Some (s [(SSym (s2l "call")); (s [(SSym (s2l "call")); (s [(SSym (s2l "lit")); (SInt (2))]); (SSym (s2l "*")); (s [(SSym (s2l "lit")); (SInt (8))])]); (SSym (s2l "-@"))]));
  (109, (s2l "+(2*8)"), Some (s [(SSym (s2l "call")); (s [(SSym (s2l "call")); (s [(SSym (s2l "lit")); (SInt (2))]); (SSym (s2l "*")); (s [(SSym (s2l "lit")); (SInt (8))])]); (SSym (s2l "+@"))]));
  (110, (s2l "-2*8"), Some (s [(SSym (s2l "call")); (s [(SSym (s2l "lit")); (SInt (-2))]); (SSym (s2l "*")); (s [(SSym (s2l "lit")); (SInt (8))])]));
  (111, (s2l "+2*8"), Some (s [(SSym (s2l "call")); (s [(SSym (s2l "lit")); (SInt (2))]); (SSym (s2l "*")); (s [(SSym (s2l "lit")); (SInt (8))])]));
  (112, (s2l "+1**2"), Some (s [(SSym (s2l "call")); (s [(SSym (s2l "lit")); (SInt (1))]); (SSym (s2l "**")); (s [(SSym (s2l "lit")); (SInt (2))])]));
  (113, (s2l "-1**2"), Some (s [(SSym (s2l "call")); (s [(SSym (s2l "call")); (s [(SSym (s2l "lit")); (SInt (1))]); (SSym (s2l "**")); (s [(SSym (s2l "lit")); (SInt (2))])]); (SSym (s2l "-@"))]));
  (114, (s2l "~1"), Some (s [(SSym (s2l "call")); (s [(SSym (s2l "lit")); (SInt (1))]); (SSym (s2l "~"))]));
  (115, (s2l "~foo"), Some (s [(SSym (s2l "call")); (s [(SSym (s2l "call")); SNil; (SSym (s2l "foo"))]); (SSym (s2l "~"))]));
  (116, (s2l "foo ~2"), Some (s [(SSym (s2l "call")); SNil; (SSym (s2l "foo")); (s [(SSym (s2l "call")); (s [(SSym (s2l "lit")); (SInt (2))]); (SSym (s2l "~"))])]));
  (117, (s2l "2 + ~2"), Some (s [(SSym (s2l "call")); (s [(SSym (s2l "lit")); (SInt (2))]); (SSym (s2l "+")); (s [(SSym (s2l "call")); (s [(SSym (s2l "lit")); (SInt (2))]); (SSym (s2l "~"))])]));
  (118, (s2l "foo -123"), Some (s [(SSym (s2l "call")); SNil; (SSym (s2l "foo")); (s [(SSym (s2l "lit")); (SInt (-123))])]));
  (119, (s2l "foo-123"), Some (s [(SSym (s2l "call")); (s [(SSym (s2l "call")); SNil; (SSym (s2l "foo"))]); (SSym (s2l "-")); (s [(SSym (s2l "lit")); (SInt (123))])]));
  (120, (s2l "foo +123"), Some (s [(SSym (s2l "call")); SNil; (SSym (s2l "foo")); (s [(SSym (s2l "lit")); (SInt (123))])]));
  (121, (s2l "foo --123"), Some (s [(SSym (s2l "call")); SNil; (SSym (s2l "foo")); (s [(SSym (s2l "call")); (s [(SSym (s2l "lit")); (SInt (-123))]); (SSym (s2l "-@"))])]));
  (122, (s2l "1 --123"), Some (s [(SSym (s2l "call")); (s [(SSym (s2l "lit")); (SInt (1))]); (SSym (s2l "-")); (s [(SSym (s2l "lit")); (SInt (-123))])]));
  (123, (s2l "--123"), Some (s [(SSym (s2l "call")); (s [(SSym (s2l "lit")); (SInt (-123))]); (SSym (s2l "-@"))]));
  (124, (s2l "--9223372036854775808"), Some (s [(SSym (s2l "call")); (s [(SSym (s2l "lit")); (SBig (s2l "-9223372036854775808"))]); (SSym (s2l "-@"))]));
  (128, (s2l "1 + 3"), Some (s [(SSym (s2l "call")); (s [(SSym (s2l "lit")); (SInt (1))]); (SSym (s2l "+")); (s [(SSym (s2l "lit")); (SInt (3))])]));
  (129, (s2l "1+3"), Some (s [(SSym (s2l "call")); (s [(SSym (s2l "lit")); (SInt (1))]); (SSym (s2l "+")); (s [(SSym (s2l "lit")); (SInt (3))])]));
  (130, [49; 43; 10; 32; 51]%N, Some (s [(SSym (s2l "call")); (s [(SSym (s2l "lit")); (SInt (1))]); (SSym (s2l "+")); (s [(SSym (s2l "lit")); (SInt (3))])]));
  (131, (s2l "1 - 3"), Some (s [(SSym (s2l "call")); (s [(SSym (s2l "lit")); (SInt (1))]); (SSym (s2l "-")); (s [(SSym (s2l "lit")); (SInt (3))])]));
  (132, (s2l "1 * 3"), Some (s [(SSym (s2l "call")); (s [(SSym (s2l "lit")); (SInt (1))]); (SSym (s2l "*")); (s [(SSym (s2l "lit")); (SInt (3))])]));
  (133, (s2l "1 / 3"), Some (s [(SSym (s2l "call")); (s [(SSym (s2l "lit")); (SInt (1))]); (SSym (s2l "/")); (s [(SSym (s2l "lit")); (SInt (3))])]));
  (134, (s2l "1 * 2 + 3"), Some (s [(SSym (s2l "call")); (s [(SSym (s2l "call")); (s [(SSym (s2l "lit")); (SInt (1))]); (SSym (s2l "*")); (s [(SSym (s2l "lit")); (SInt (2))])]); (SSym (s2l "+")); (s [(SSym (s2l "lit")); (SInt (3))])]));
  (135, (s2l "1 / 2 - 3"), Some (s [(SSym (s2l "call")); (s [(SSym (s2l "call")); (s [(SSym (s2l "lit")); (SInt (1))]); (SSym (s2l "/")); (s [(SSym (s2l "lit")); (SInt (2))])]); (SSym (s2l "-")); (s [(SSym (s2l "lit")); (SInt (3))])]));
  (136, (s2l "1 + 2 * 3"), Some (s [(SSym (s2l "call")); (s [(SSym (s2l "lit")); (SInt (1))]); (SSym (s2l "+")); (s [(SSym (s2l "call")); (s [(SSym (s2l "lit")); (SInt (2))]); (SSym (s2l "*")); (s [(SSym (s2l "lit")); (SInt (3))])])]));
  (137, (s2l "1 - 2 / 3"), Some (s [(SSym (s2l "call")); (s [(SSym (s2l "lit")); (SInt (1))]); (SSym (s2l "-")); (s [(SSym (s2l "call")); (s [(SSym (s2l "lit")); (SInt (2))]); (SSym (s2l "/")); (s [(SSym (s2l "lit")); (SInt (3))])])]));
  (138, (s2l "(1 + 2) * 3"), Some (s [(SSym (s2l "call")); (s [(SSym (s2l "call")); (s [(SSym (s2l "lit")); (SInt (1))]); (SSym (s2l "+")); (s [(SSym (s2l "lit")); (SInt (2))])]); (SSym (s2l "*")); (s [(SSym (s2l "lit")); (SInt (3))])]));
  (139, [40; 10; 49; 32; 43; 32; 50; 10; 41; 32; 42; 32; 51]%N, Some (s [(SSym (s2l "call")); (s [(SSym (s2l "call")); (s [(SSym (s2l "lit")); (SInt (1))]); (SSym (s2l "+")); (s [(SSym (s2l "lit")); (SInt (2))])]); (SSym (s2l "*")); (s [(SSym (s2l "lit")); (SInt (3))])]));
  (140, (s2l "(1 - 2) / 3"), Some (s [(SSym (s2l "call")); (s [(SSym (s2l "call")); (s [(SSym (s2l "lit")); (SInt (1))]); (SSym (s2l "-")); (s [(SSym (s2l "lit")); (SInt (2))])]); (SSym (s2l "/")); (s [(SSym (s2l "lit")); (SInt (3))])]));
  (141, (s2l "(1 + 2) * (3 + 4)"), Some (s [(SSym (s2l "call")); (s [(SSym (s2l "call")); (s [(SSym (s2l "lit")); (SInt (1))]); (SSym (s2l "+")); (s [(SSym (s2l "lit")); (SInt (2))])]); (SSym (s2l "*")); (s [(SSym (s2l "call")); (s [(SSym (s2l "lit")); (SInt (3))]); (SSym (s2l "+")); (s [(SSym (s2l "lit")); (SInt (4))])])]));
  (142, (s2l """foo"" + ""bar"""), Some (s [(SSym (s2l "call")); (s [(SSym (s2l "str")); (SStr (s2l "foo"))]); (SSym (s2l "+")); (s [(SSym (s2l "str")); (SStr (s2l "bar"))])]));
  (143, (s2l "1 == 1"), Some (s [(SSym (s2l "call")); (s [(SSym (s2l "lit")); (SInt (1))]); (SSym (s2l "==")); (s [(SSym (s2l "lit")); (SInt (1))])]));
  (144, (s2l "a != b"), Some (s [(SSym (s2l "call")); (s [(SSym (s2l "call")); SNil; (SSym (s2l "a"))]); (SSym (s2l "!=")); (s [(SSym (s2l "call")); SNil; (SSym (s2l "b"))])]));
  (145, (s2l "Foo === bar"), Some (s [(SSym (s2l "call")); (s [(SSym (s2l "const")); (SSym (s2l "Foo"))]); (SSym (s2l "===")); (s [(SSym (s2l "call")); SNil; (SSym (s2l "bar"))])]));
  (146, (s2l "1 < 2"), Some (s [(SSym (s2l "call")); (s [(SSym (s2l "lit")); (SInt (1))]); (SSym (s2l "<")); (s [(SSym (s2l "lit")); (SInt (2))])]));
  (147, (s2l "1 <= 2"), Some (s [(SSym (s2l "call")); (s [(SSym (s2l "lit")); (SInt (1))]); (SSym (s2l "<=")); (s [(SSym (s2l "lit")); (SInt (2))])]));
  (148, (s2l "1 > 2"), Some (s [(SSym (s2l "call")); (s [(SSym (s2l "lit")); (SInt (1))]); (SSym (s2l ">")); (s [(SSym (s2l "lit")); (SInt (2))])]));
  (149, (s2l "1 >= 2"), Some (s [(SSym (s2l "call")); (s [(SSym (s2l "lit")); (SInt (1))]); (SSym (s2l ">=")); (s [(SSym (s2l "lit")); (SInt (2))])]));
  (150, (s2l "5-3"), Some (s [(SSym (s2l "call")); (s [(SSym (s2l "lit")); (SInt (5))]); (SSym (s2l "-")); (s [(SSym (s2l "lit")); (SInt (3))])]));
  (151, (s2l "5 -3"), Some (s [(SSym (s2l "call")); (s [(SSym (s2l "lit")); (SInt (5))]); (SSym (s2l "-")); (s [(SSym (s2l "lit")); (SInt (3))])]));
  (152, (s2l "1 +1"), Some (s [(SSym (s2l "call")); (s [(SSym (s2l "lit")); (SInt (1))]); (SSym (s2l "+")); (s [(SSym (s2l "lit")); (SInt (1))])]));
  (153, (s2l "(1+2)-3 == 0"), Some (s [(SSym (s2l "call")); (s [(SSym (s2l "call")); (s [(SSym (s2l "call")); (s [(SSym (s2l "lit")); (SInt (1))]); (SSym (s2l "+")); (s [(SSym (s2l "lit")); (SInt (2))])]); (SSym (s2l "-")); (s [(SSym (s2l "lit")); (SInt (3))])]); (SSym (s2l "==")); (s [(SSym (s2l "lit")); (SInt (0))])]));
  (154, (s2l "-(1<<33)-1"), Some (s [(SSym (s2l "call")); (s [(SSym (s2l "call")); (s [(SSym (s2l "call")); (s [(SSym (s2l "lit")); (SInt (1))]); (SSym (s2l "<<")); (s [(SSym (s2l "lit")); (SInt (33))])]); (SSym (s2l "-@"))]); (SSym (s2l "-")); (s [(SSym (s2l "lit")); (SInt (1))])]));
  (155, (s2l "((-(1<<33)-1) & 5)"), Some (s [(SSym (s2l "call")); (s [(SSym (s2l "call")); (s [(SSym (s2l "call")); (s [(SSym (s2l "call")); (s [(SSym (s2l "lit")); (SInt (1))]); (SSym (s2l "<<")); (s [(SSym (s2l "lit")); (SInt (33))])]); (SSym (s2l "-@"))]); (SSym (s2l "-")); (s [(SSym (s2l "lit")); (SInt (1))])]); (SSym (s2l "&")); (s [(SSym (s2l "lit")); (SInt (5))])]));
  (156, (s2l "1 + 2 == 3 * 4"), Some (s [(SSym (s2l "call")); (s [(SSym (s2l "call")); (s [(SSym (s2l "lit")); (SInt (1))]); (SSym (s2l "+")); (s [(SSym (s2l "lit")); (SInt (2))])]); (SSym (s2l "==")); (s [(SSym (s2l "call")); (s [(SSym (s2l "lit")); (SInt (3))]); (SSym (s2l "*")); (s [(SSym (s2l "lit")); (SInt (4))])])]));
  (157, (s2l "2 ** 10"), Some (s [(SSym (s2l "call")); (s [(SSym (s2l "lit")); (SInt (2))]); (SSym (s2l "**")); (s [(SSym (s2l "lit")); (SInt (10))])]));
  (158, (s2l "1 * 2 ** 10 + 3"), Some (s [(SSym (s2l "call")); (s [(SSym (s2l "call")); (s [(SSym (s2l "lit")); (SInt (1))]); (SSym (s2l "*")); (s [(SSym (s2l "call")); (s [(SSym (s2l "lit")); (SInt (2))]); (SSym (s2l "**")); (s [(SSym (s2l "lit")); (SInt (10))])])]); (SSym (s2l "+")); (s [(SSym (s2l "lit")); (SInt (3))])]));
  (159, (s2l "1 & 2 | 3 ^ 4"), Some (s [(SSym (s2l "call")); (s [(SSym (s2l "call")); (s [(SSym (s2l "call")); (s [(SSym (s2l "lit")); (SInt (1))]); (SSym (s2l "&")); (s [(SSym (s2l "lit")); (SInt (2))])]); (SSym (s2l "|")); (s [(SSym (s2l "lit")); (SInt (3))])]); (SSym (s2l "^")); (s [(SSym (s2l "lit")); (SInt (4))])]));
  (160, (s2l "10 % 3"), Some (s [(SSym (s2l "call")); (s [(SSym (s2l "lit")); (SInt (10))]); (SSym (s2l "%")); (s [(SSym (s2l "lit")); (SInt (3))])]));
  (161, (s2l "x << 1"), Some (s [(SSym (s2l "call")); (s [(SSym (s2l "call")); SNil; (SSym (s2l "x"))]); (SSym (s2l "<<")); (s [(SSym (s2l "lit")); (SInt (1))])]));
  (162, (s2l "x<<1"), Some (s [(SSym (s2l "call")); (s [(SSym (s2l "call")); SNil; (SSym (s2l "x"))]); (SSym (s2l "<<")); (s [(SSym (s2l "lit")); (SInt (1))])]));
  (163, (s2l "x<<y"), Some (s [(SSym (s2l "call")); (s [(SSym (s2l "call")); SNil; (SSym (s2l "x"))]); (SSym (s2l "<<")); (s [(SSym (s2l "call")); SNil; (SSym (s2l "y"))])]));
  (164, (s2l "x =~ y"), Some (s [(SSym (s2l "call")); (s [(SSym (s2l "call")); SNil; (SSym (s2l "x"))]); (SSym (s2l "=~")); (s [(SSym (s2l "call")); SNil; (SSym (s2l "y"))])]));
  (165, (s2l "x =~ /foo/"), Some (s [(SSym (s2l "match3")); (s [(SSym (s2l "lit")); (SRegexp (s2l "foo") 0)]); (s [(SSym (s2l "call")); SNil; (SSym (s2l "x"))])]));
  (166, (s2l "/foo/ =~ x"), Some (s [(SSym (s2l "match2")); (s [(SSym (s2l "lit")); (SRegexp (s2l "foo") 0)]); (s [(SSym (s2l "call")); SNil; (SSym (s2l "x"))])]));
  (167, (s2l "x !~ y"), Some (s [(SSym (s2l "not")); (s [(SSym (s2l "call")); (s [(SSym (s2l "call")); SNil; (SSym (s2l "x"))]); (SSym (s2l "=~")); (s [(SSym (s2l "call")); SNil; (SSym (s2l "y"))])])]));
  (168, (s2l "x !~ /foo/"), Some (s [(SSym (s2l "not")); (s [(SSym (s2l "match3")); (s [(SSym (s2l "lit")); (SRegexp (s2l "foo") 0)]); (s [(SSym (s2l "call")); SNil; (SSym (s2l "x"))])])]));
  (169, (s2l "/foo/ !~ x"), Some (s [(SSym (s2l "not")); (s [(SSym (s2l "match2")); (s [(SSym (s2l "lit")); (SRegexp (s2l "foo") 0)]); (s [(SSym (s2l "call")); SNil; (SSym (s2l "x"))])])]));
  (170, (s2l "foo <=> bar"), Some (s [(SSym (s2l "call")); (s [(SSym (s2l "call")); SNil; (SSym (s2l "foo"))]); (SSym (s2l "<=>")); (s [(SSym (s2l "call")); SNil; (SSym (s2l "bar"))])]));
  (171, (s2l "1**2"), Some (s [(SSym (s2l "call")); (s [(SSym (s2l "lit")); (SInt (1))]); (SSym (s2l "**")); (s [(SSym (s2l "lit")); (SInt (2))])]));
  (172, (s2l "foo :foo?=>:bar?"), Some (s [(SSym (s2l "call")); SNil; (SSym (s2l "foo")); (s [(SSym (s2l "bare_hash")); (s [(SSym (s2l "lit")); (SSym (s2l "foo?"))]); (s [(SSym (s2l "lit")); (SSym (s2l "bar?"))])])]));
  (173, (s2l "foo :foo=>:bar"), Some (s [(SSym (s2l "call")); SNil; (SSym (s2l "foo")); (s [(SSym (s2l "bare_hash")); (s [(SSym (s2l "lit")); (SSym (s2l "foo"))]); (s [(SSym (s2l "lit")); (SSym (s2l "bar"))])])]));
  (174, (s2l ":foo?==:bar?"), Some (s [(SSym (s2l "call")); (s [(SSym (s2l "lit")); (SSym (s2l "foo?"))]); (SSym (s2l "==")); (s [(SSym (s2l "lit")); (SSym (s2l "bar?"))])]));
  (177, (s2l "foo?==bar?"), Some (s [(SSym (s2l "call")); (s [(SSym (s2l "call")); SNil; (SSym (s2l "foo?"))]); (SSym (s2l "==")); (s [(SSym (s2l "call")); SNil; (SSym (s2l "bar?"))])]));
  (178, (s2l ":foo!==:bar!"), Some (s [(SSym (s2l "call")); (s [(SSym (s2l "lit")); (SSym (s2l "foo!"))]); (SSym (s2l "==")); (s [(SSym (s2l "lit")); (SSym (s2l "bar!"))])]));
  (179, (s2l "foo!==bar!"), Some (s [(SSym (s2l "call")); (s [(SSym (s2l "call")); SNil; (SSym (s2l "foo!"))]); (SSym (s2l "==")); (s [(SSym (s2l "call")); SNil; (SSym (s2l "bar!"))])]));
  (189, (s2l "1 && 2 || 3 && 4"), Some (s [(SSym (s2l "or")); (s [(SSym (s2l "and")); (s [(SSym (s2l "lit")); (SInt (1))]); (s [(SSym (s2l "lit")); (SInt (2))])]); (s [(SSym (s2l "and")); (s [(SSym (s2l "lit")); (SInt (3))]); (s [(SSym (s2l "lit")); (SInt (4))])])]));
  (190, (s2l "false and true and false"), Some (s [(SSym (s2l "and")); (s [(SSym (s2l "false"))]); (s [(SSym (s2l "and")); (s [(SSym (s2l "true"))]); (s [(SSym (s2l "false"))])])]));
  (191, (s2l "false or true or false"), Some (s [(SSym (s2l "or")); (s [(SSym (s2l "false"))]); (s [(SSym (s2l "or")); (s [(SSym (s2l "true"))]); (s [(SSym (s2l "false"))])])]));
  (192, (s2l "false && true && false"), Some (s [(SSym (s2l "and")); (s [(SSym (s2l "false"))]); (s [(SSym (s2l "and")); (s [(SSym (s2l "true"))]); (s [(SSym (s2l "false"))])])]));
  (193, (s2l "false || true || false"), Some (s [(SSym (s2l "or")); (s [(SSym (s2l "false"))]); (s [(SSym (s2l "or")); (s [(SSym (s2l "true"))]); (s [(SSym (s2l "false"))])])]));
  (194, (s2l "1 and 2 or 3 and 4"), Some (s [(SSym (s2l "and")); (s [(SSym (s2l "or")); (s [(SSym (s2l "and")); (s [(SSym (s2l "lit")); (SInt (1))]); (s [(SSym (s2l "lit")); (SInt (2))])]); (s [(SSym (s2l "lit")); (SInt (3))])]); (s [(SSym (s2l "lit")); (SInt (4))])]));
  (195, (s2l "1 or 2 and 3 or 4"), Some (s [(SSym (s2l "or")); (s [(SSym (s2l "and")); (s [(SSym (s2l "or")); (s [(SSym (s2l "lit")); (SInt (1))]); (s [(SSym (s2l "lit")); (SInt (2))])]); (s [(SSym (s2l "lit")); (SInt (3))])]); (s [(SSym (s2l "lit")); (SInt (4))])]));
  (199, (s2l "!false"), Some (s [(SSym (s2l "call")); (s [(SSym (s2l "false"))]); (SSym (s2l "!"))]));
  (200, (s2l "not false"), Some (s [(SSym (s2l "call")); (s [(SSym (s2l "false"))]); (SSym (s2l "!"))]));
  (201, (s2l "not foo bar"), Some (s [(SSym (s2l "call")); (s [(SSym (s2l "call")); SNil; (SSym (s2l "foo")); (s [(SSym (s2l "call")); SNil; (SSym (s2l "bar"))])]); (SSym (s2l "!"))]));
  (202, (s2l "!foo.bar(baz)"), Some (s [(SSym (s2l "call")); (s [(SSym (s2l "call")); (s [(SSym (s2l "call")); SNil; (SSym (s2l "foo"))]); (SSym (s2l "bar")); (s [(SSym (s2l "call")); SNil; (SSym (s2l "baz"))])]); (SSym (s2l "!"))]));
  (208, [49; 32; 43; 32; 50; 10; 10; 41]%N, None);
  (215, (s2l """"""), Some (s [(SSym (s2l "str")); (SStr (s2l ""))]));
  (216, (s2l """foo"""), Some (s [(SSym (s2l "str")); (SStr (s2l "foo"))]));
  (217, (s2l """this is \""quoted\"""""), Some (s [(SSym (s2l "str")); (SStr (s2l "this is ""quoted"""))]));
  (218, (s2l """other escaped chars \\ \n"""), Some (s [(SSym (s2l "str")); (SStr [111; 116; 104; 101; 114; 32; 101; 115; 99; 97; 112; 101; 100; 32; 99; 104; 97; 114; 115; 32; 92; 32; 10]%N)]));
  (219, (s2l "''"), Some (s [(SSym (s2l "str")); (SStr (s2l ""))]));
  (220, (s2l "'foo'"), Some (s [(SSym (s2l "str")); (SStr (s2l "foo"))]));
  (221, (s2l "'this is \'quoted\''"), Some (s [(SSym (s2l "str")); (SStr (s2l "this is 'quoted'"))]));
  (222, (s2l "'other escaped chars \\ \n'"), Some (s [(SSym (s2l "str")); (SStr (s2l "other escaped chars \ \n"))]));
  (223, (s2l "'foo' 'bar'"), Some (s [(SSym (s2l "str")); (SStr (s2l "foobar"))]));
  (224, (s2l "'foo' ""bar"""), Some (s [(SSym (s2l "str")); (SStr (s2l "foobar"))]));
  (225, (s2l """foo"" 'bar'"), Some (s [(SSym (s2l "str")); (SStr (s2l "foobar"))]));
  (226, (s2l """foo"" ""bar"""), Some (s [(SSym (s2l "str")); (SStr (s2l "foobar"))]));
  (227, (s2l "%Q{1 {2} 3}"), Some (s [(SSym (s2l "str")); (SStr (s2l "1 {2} 3"))]));
  (228, (s2l "%Q/1 {2} 3/"), Some (s [(SSym (s2l "str")); (SStr (s2l "1 {2} 3"))]));
  (229, (s2l "%Q[1 [2] 3]"), Some (s [(SSym (s2l "str")); (SStr (s2l "1 [2] 3"))]));
  (230, (s2l "%Q(1 (2) 3)"), Some (s [(SSym (s2l "str")); (SStr (s2l "1 (2) 3"))]));
  (231, (s2l "%{1 {2} 3}"), Some (s [(SSym (s2l "str")); (SStr (s2l "1 {2} 3"))]));
  (232, (s2l "%/1 {2} 3/"), Some (s [(SSym (s2l "str")); (SStr (s2l "1 {2} 3"))]));
  (233, (s2l "%[1 [2] 3]"), Some (s [(SSym (s2l "str")); (SStr (s2l "1 [2] 3"))]));
  (234, (s2l "%(1 (2) 3)"), Some (s [(SSym (s2l "str")); (SStr (s2l "1 (2) 3"))]));
  (235, (s2l "%'1 \' 2'"), Some (s [(SSym (s2l "str")); (SStr (s2l "1 ' 2"))]));
  (236, (s2l "%""1 \"" 2"""), Some (s [(SSym (s2l "str")); (SStr (s2l "1 "" 2"))]));
  (237, (s2l "%q'1 \' 2'"), Some (s [(SSym (s2l "str")); (SStr (s2l "1 ' 2"))]));
  (238, (s2l "%q""1 \"" 2"""), Some (s [(SSym (s2l "str")); (SStr (s2l "1 "" 2"))]));
  (239, (s2l "%Q'1 \' 2'"), Some (s [(SSym (s2l "str")); (SStr (s2l "1 ' 2"))]));
  (240, (s2l "%Q""1 \"" 2"""), Some (s [(SSym (s2l "str")); (SStr (s2l "1 "" 2"))]));
  (241, (s2l "%q(1 (\x\') 2)"), Some (s [(SSym (s2l "str")); (SStr (s2l "1 (\x\') 2"))]));
  (242, [34; 102; 111; 111; 92; 10; 98; 97; 114; 34]%N, Some (s [(SSym (s2l "str")); (SStr (s2l "foobar"))]));
  (245, (s2l """#{:foo} bar #{1 + 1}"""), Some (s [(SSym (s2l "dstr")); (SStr (s2l "")); (s [(SSym (s2l "evstr")); (s [(SSym (s2l "lit")); (SSym (s2l "foo"))])]); (s [(SSym (s2l "str")); (SStr (s2l " bar "))]); (s [(SSym (s2l "evstr")); (s [(SSym (s2l "call")); (s [(SSym (s2l "lit")); (SInt (1))]); (SSym (s2l "+")); (s [(SSym (s2l "lit")); (SInt (1))])])])]));
  (246, (s2l "y = ""#{1 + 1} 2"""), Some (s [(SSym (s2l "lasgn")); (SSym (s2l "y")); (s [(SSym (s2l "dstr")); (SStr (s2l "")); (s [(SSym (s2l "evstr")); (s [(SSym (s2l "call")); (s [(SSym (s2l "lit")); (SInt (1))]); (SSym (s2l "+")); (s [(SSym (s2l "lit")); (SInt (1))])])]); (s [(SSym (s2l "str")); (SStr (s2l " 2"))])])]));
  (247, (s2l "x.y = ""#{1 + 1} 2"""), Some (s [(SSym (s2l "attrasgn")); (s [(SSym (s2l "call")); SNil; (SSym (s2l "x"))]); (SSym (s2l "y=")); (s [(SSym (s2l "dstr")); (SStr (s2l "")); (s [(SSym (s2l "evstr")); (s [(SSym (s2l "call")); (s [(SSym (s2l "lit")); (SInt (1))]); (SSym (s2l "+")); (s [(SSym (s2l "lit")); (SInt (1))])])]); (s [(SSym (s2l "str")); (SStr (s2l " 2"))])])]))].
Example parser_test_0_passes : forallb passes parser_test_0 = true.
Proof. vm_compute. reflexivity. Qed.

(** /repo/test/parser_test.rb, lines 248-618. *)
Definition parser_test_1 : list (N * str * option sexp) := [
  (248, (s2l """#{foo { 1 }}"""), Some (s [(SSym (s2l "dstr")); (SStr (s2l "")); (s [(SSym (s2l "evstr")); (s [(SSym (s2l "iter")); (s [(SSym (s2l "call")); SNil; (SSym (s2l "foo"))]); (SInt (0)); (s [(SSym (s2l "lit")); (SInt (1))])])])]));
  (249, (s2l """#{1}foo#{''}bar"""), Some (s [(SSym (s2l "dstr")); (SStr (s2l "")); (s [(SSym (s2l "evstr")); (s [(SSym (s2l "lit")); (SInt (1))])]); (s [(SSym (s2l "str")); (SStr (s2l "foo"))]); (s [(SSym (s2l "str")); (SStr (s2l ""))]); (s [(SSym (s2l "str")); (SStr (s2l "bar"))])]));
  (250, [34; 97; 10; 35; 123; 10; 125; 34]%N, Some (s [(SSym (s2l "dstr")); (SStr [97; 10]%N); (s [(SSym (s2l "evstr"))])]));
  (251, (s2l """#{'a'}#{b}"""), Some (s [(SSym (s2l "dstr")); (SStr (s2l "a")); (s [(SSym (s2l "evstr")); (s [(SSym (s2l "call")); SNil; (SSym (s2l "b"))])])]));
  (252, (s2l """#{'a'}#{'b'}"""), Some (s [(SSym (s2l "str")); (SStr (s2l "ab"))]));
  (253, (s2l """#{'a'} b"""), Some (s [(SSym (s2l "str")); (SStr (s2l "a b"))]));
  (254, (s2l """a #{1} b #{'c'}"""), Some (s [(SSym (s2l "dstr")); (SStr (s2l "a ")); (s [(SSym (s2l "evstr")); (s [(SSym (s2l "lit")); (SInt (1))])]); (s [(SSym (s2l "str")); (SStr (s2l " b "))]); (s [(SSym (s2l "str")); (SStr (s2l "c"))])]));
  (255, (s2l """#{1+1}foo"" ""bar"""), Some (s [(SSym (s2l "dstr")); (SStr (s2l "")); (s [(SSym (s2l "evstr")); (s [(SSym (s2l "call")); (s [(SSym (s2l "lit")); (SInt (1))]); (SSym (s2l "+")); (s [(SSym (s2l "lit")); (SInt (1))])])]); (s [(SSym (s2l "str")); (SStr (s2l "foo"))]); (s [(SSym (s2l "str")); (SStr (s2l "bar"))])]));
  (256, (s2l """foo#{0+0}"" 'bar#{1+1}'"), Some (s [(SSym (s2l "dstr")); (SStr (s2l "foo")); (s [(SSym (s2l "evstr")); (s [(SSym (s2l "call")); (s [(SSym (s2l "lit")); (SInt (0))]); (SSym (s2l "+")); (s [(SSym (s2l "lit")); (SInt (0))])])]); (s [(SSym (s2l "str")); (SStr (s2l "bar#{1+1}"))])]));
  (257, (s2l "'foo#{0+0}' ""bar#{1+1}"""), Some (s [(SSym (s2l "dstr")); (SStr (s2l "foo#{0+0}bar")); (s [(SSym (s2l "evstr")); (s [(SSym (s2l "call")); (s [(SSym (s2l "lit")); (SInt (1))]); (SSym (s2l "+")); (s [(SSym (s2l "lit")); (SInt (1))])])])]));
  (258, (s2l "'foo' ""#{1+1}"""), Some (s [(SSym (s2l "dstr")); (SStr (s2l "foo")); (s [(SSym (s2l "evstr")); (s [(SSym (s2l "call")); (s [(SSym (s2l "lit")); (SInt (1))]); (SSym (s2l "+")); (s [(SSym (s2l "lit")); (SInt (1))])])])]));
  (259, (s2l """foo#{0+0}"" ""bar#{1+1}"""), Some (s [(SSym (s2l "dstr")); (SStr (s2l "foo")); (s [(SSym (s2l "evstr")); (s [(SSym (s2l "call")); (s [(SSym (s2l "lit")); (SInt (0))]); (SSym (s2l "+")); (s [(SSym (s2l "lit")); (SInt (0))])])]); (s [(SSym (s2l "str")); (SStr (s2l "bar"))]); (s [(SSym (s2l "evstr")); (s [(SSym (s2l "call")); (s [(SSym (s2l "lit")); (SInt (1))]); (SSym (s2l "+")); (s [(SSym (s2l "lit")); (SInt (1))])])])]));
  (260, (s2l """#{0+0}foo"" ""bar#{1+1}"""), Some (s [(SSym (s2l "dstr")); (SStr (s2l "")); (s [(SSym (s2l "evstr")); (s [(SSym (s2l "call")); (s [(SSym (s2l "lit")); (SInt (0))]); (SSym (s2l "+")); (s [(SSym (s2l "lit")); (SInt (0))])])]); (s [(SSym (s2l "str")); (SStr (s2l "foo"))]); (s [(SSym (s2l "str")); (SStr (s2l "bar"))]); (s [(SSym (s2l "evstr")); (s [(SSym (s2l "call")); (s [(SSym (s2l "lit")); (SInt (1))]); (SSym (s2l "+")); (s [(SSym (s2l "lit")); (SInt (1))])])])]));
  (261, (s2l """#{0+0}foo"" ""#{1+1}bar"""), Some (s [(SSym (s2l "dstr")); (SStr (s2l "")); (s [(SSym (s2l "evstr")); (s [(SSym (s2l "call")); (s [(SSym (s2l "lit")); (SInt (0))]); (SSym (s2l "+")); (s [(SSym (s2l "lit")); (SInt (0))])])]); (s [(SSym (s2l "str")); (SStr (s2l "foo"))]); (s [(SSym (s2l "evstr")); (s [(SSym (s2l "call")); (s [(SSym (s2l "lit")); (SInt (1))]); (SSym (s2l "+")); (s [(SSym (s2l "lit")); (SInt (1))])])]); (s [(SSym (s2l "str")); (SStr (s2l "bar"))])]));
  (262, (s2l "%{#{ ""#{1}"" }}"), Some (s [(SSym (s2l "dstr")); (SStr (s2l "")); (s [(SSym (s2l "evstr")); (s [(SSym (s2l "lit")); (SInt (1))])])]));
  (263, (s2l "%{ { #{ ""#{1}"" } } }"), Some (s [(SSym (s2l "dstr")); (SStr (s2l " { ")); (s [(SSym (s2l "evstr")); (s [(SSym (s2l "lit")); (SInt (1))])]); (s [(SSym (s2l "str")); (SStr (s2l " } "))])]));
  (264, (s2l """#{p:a}"""), Some (s [(SSym (s2l "dstr")); (SStr (s2l "")); (s [(SSym (s2l "evstr")); (s [(SSym (s2l "call")); SNil; (SSym (s2l "p")); (s [(SSym (s2l "lit")); (SSym (s2l "a"))])])])]));
  (340, [32; 32; 34; 102; 111; 111; 10; 98; 97; 122]%N, None);
  (347, [32; 32; 37; 40; 102; 111; 111; 10; 98; 97; 122]%N, None);
  (354, [32; 32; 39; 102; 111; 111; 10; 98; 97; 122]%N, None);
  (361, [37; 91; 102; 111; 111; 10; 98; 97; 122]%N, None);
  (362, [37; 113; 40; 102; 111; 111; 10; 98; 97; 122]%N, None);
  (363, [37; 81; 40; 102; 111; 111; 10; 98; 97; 122]%N, None);
  (364, [37; 81; 91; 102; 111; 111; 10; 98; 97; 122]%N, None);
  (365, [37; 81; 47; 102; 111; 111; 10; 98; 97; 122]%N, None);
  (371, [32; 32; 58; 34; 102; 111; 111; 10; 98; 97; 122]%N, None);
  (383, [32; 32; 47; 102; 111; 111; 10; 98; 97; 122]%N, None);
  (390, [37; 114; 91; 102; 111; 111; 10; 98; 97; 122]%N, None);
  (391, [37; 114; 40; 102; 111; 111; 10; 98; 97; 122]%N, None);
  (392, [37; 114; 47; 102; 111; 111; 10; 98; 97; 122]%N, None);
  (398, [32; 32; 96; 102; 111; 111; 10; 98; 97; 122]%N, None);
  (405, [37; 120; 91; 102; 111; 111; 10; 98; 97; 122]%N, None);
  (406, [37; 120; 40; 102; 111; 111; 10; 98; 97; 122]%N, None);
  (407, [37; 120; 47; 102; 111; 111; 10; 98; 97; 122]%N, None);
  (413, [32; 32; 37; 119; 91; 102; 111; 111; 10; 98; 97; 122]%N, None);
  (420, [37; 119; 40; 102; 111; 111; 10; 98; 97; 122]%N, None);
  (421, [37; 119; 47; 102; 111; 111; 10; 98; 97; 122]%N, None);
  (422, (s2l "%W[ foo#{#1} bar ]"), None);
  (427, (s2l ":foo"), Some (s [(SSym (s2l "lit")); (SSym (s2l "foo"))]));
  (428, (s2l ":foo_bar"), Some (s [(SSym (s2l "lit")); (SSym (s2l "foo_bar"))]));
  (429, (s2l ":""foo bar"""), Some (s [(SSym (s2l "lit")); (SSym (s2l "foo bar"))]));
  (430, (s2l ":""foo #{1+1}"""), Some (s [(SSym (s2l "dsym")); (SStr (s2l "foo ")); (s [(SSym (s2l "evstr")); (s [(SSym (s2l "call")); (s [(SSym (s2l "lit")); (SInt (1))]); (SSym (s2l "+")); (s [(SSym (s2l "lit")); (SInt (1))])])])]));
  (431, (s2l ":""#{1+1}"""), Some (s [(SSym (s2l "dsym")); (SStr (s2l "")); (s [(SSym (s2l "evstr")); (s [(SSym (s2l "call")); (s [(SSym (s2l "lit")); (SInt (1))]); (SSym (s2l "+")); (s [(SSym (s2l "lit")); (SInt (1))])])])]));
  (432, (s2l "foo :""bar"""), Some (s [(SSym (s2l "call")); SNil; (SSym (s2l "foo")); (s [(SSym (s2l "lit")); (SSym (s2l "bar"))])]));
  (433, (s2l ":FooBar"), Some (s [(SSym (s2l "lit")); (SSym (s2l "FooBar"))]));
  (434, (s2l """foo"" ""bar"":"), None);
  (435, (s2l """foo"": ""bar"":"), None);
  (473, (s2l "/foo/"), Some (s [(SSym (s2l "lit")); (SRegexp (s2l "foo") 0)]));
  (474, (s2l "/foo/i"), Some (s [(SSym (s2l "lit")); (SRegexp (s2l "foo") 1)]));
  (477, (s2l "//mix"), Some (s [(SSym (s2l "lit")); (SRegexp (s2l "") 7)]));
  (481, (s2l "/#{1+1}/mixn"), Some (s [(SSym (s2l "dregx")); (SStr (s2l "")); (s [(SSym (s2l "evstr")); (s [(SSym (s2l "call")); (s [(SSym (s2l "lit")); (SInt (1))]); (SSym (s2l "+")); (s [(SSym (s2l "lit")); (SInt (1))])])]); (SInt (39))]));
  (482, (s2l "/foo #{1+1}/"), Some (s [(SSym (s2l "dregx")); (SStr (s2l "foo ")); (s [(SSym (s2l "evstr")); (s [(SSym (s2l "call")); (s [(SSym (s2l "lit")); (SInt (1))]); (SSym (s2l "+")); (s [(SSym (s2l "lit")); (SInt (1))])])])]));
  (483, (s2l "/#{1+1}/"), Some (s [(SSym (s2l "dregx")); (SStr (s2l "")); (s [(SSym (s2l "evstr")); (s [(SSym (s2l "call")); (s [(SSym (s2l "lit")); (SInt (1))]); (SSym (s2l "+")); (s [(SSym (s2l "lit")); (SInt (1))])])])]));
  (484, (s2l "/^$(.)[.]{1}.*.+.?\^\$\.\(\)\[\]\{\}\w\W\d\D\h\H\s\S\R\*\+\?/"), Some (s [(SSym (s2l "lit")); (SRegexp (s2l "^$(.)[.]{1}.*.+.?\^\$\.\(\)\[\]\{\}\w\W\d\D\h\H\s\S\R\*\+\?") 0)]));
  (485, (s2l "/\n\\n/"), Some (s [(SSym (s2l "lit")); (SRegexp (s2l "\n\\n") 0)]));
  (487, (s2l "/\&\a\b/"), Some (s [(SSym (s2l "lit")); (SRegexp (s2l "\&\a\b") 0)]));
  (488, (s2l "%r/foo\nbar/"), Some (s [(SSym (s2l "lit")); (SRegexp (s2l "foo\nbar") 0)]));
  (489, (s2l "%r'foo\nbar'"), Some (s [(SSym (s2l "lit")); (SRegexp (s2l "foo\nbar") 0)]));
  (490, (s2l "%r""foo\nbar"""), Some (s [(SSym (s2l "lit")); (SRegexp (s2l "foo\nbar") 0)]));
  (491, (s2l "%r(foo(\n)bar)"), Some (s [(SSym (s2l "lit")); (SRegexp (s2l "foo(\n)bar") 0)]));
  (492, (s2l "%r'\""'"), Some (s [(SSym (s2l "lit")); (SRegexp (s2l "\""") 0)]));
  (493, (s2l "%r""\"""""), Some (s [(SSym (s2l "lit")); (SRegexp (s2l """") 0)]));
  (494, (s2l "%r'\''"), Some (s [(SSym (s2l "lit")); (SRegexp (s2l "'") 0)]));
  (495, (s2l "%r""\'"""), Some (s [(SSym (s2l "lit")); (SRegexp (s2l "\'") 0)]));
  (499, (s2l "if / foo/; end"), Some (s [(SSym (s2l "if")); (s [(SSym (s2l "match")); (s [(SSym (s2l "lit")); (SRegexp (s2l " foo") 0)])]); SNil; SNil]));
  (500, (s2l "if false; elsif / foo/; end"), Some (s [(SSym (s2l "if")); (s [(SSym (s2l "false"))]); SNil; (s [(SSym (s2l "if")); (s [(SSym (s2l "lit")); (SRegexp (s2l " foo") 0)]); SNil; SNil])]));
  (501, (s2l "begin; 1; rescue / foo/; end"), Some (s [(SSym (s2l "rescue")); (s [(SSym (s2l "lit")); (SInt (1))]); (s [(SSym (s2l "resbody")); (s [(SSym (s2l "array")); (s [(SSym (s2l "lit")); (SRegexp (s2l " foo") 0)])]); SNil])]));
  (502, (s2l "return / foo/"), Some (s [(SSym (s2l "return")); (s [(SSym (s2l "lit")); (SRegexp (s2l " foo") 0)])]));
  (503, (s2l "unless / foo/; end"), Some (s [(SSym (s2l "if")); (s [(SSym (s2l "match")); (s [(SSym (s2l "lit")); (SRegexp (s2l " foo") 0)])]); SNil; SNil]));
  (504, (s2l "case; when / foo/; end"), Some (s [(SSym (s2l "case")); SNil; (s [(SSym (s2l "when")); (s [(SSym (s2l "array")); (s [(SSym (s2l "lit")); (SRegexp (s2l " foo") 0)])]); SNil]); SNil]));
  (505, (s2l "while / foo/; end"), Some (s [(SSym (s2l "while")); (s [(SSym (s2l "match")); (s [(SSym (s2l "lit")); (SRegexp (s2l " foo") 0)])]); SNil; STrue]));
  (506, (s2l "until / foo/; end"), Some (s [(SSym (s2l "until")); (s [(SSym (s2l "match")); (s [(SSym (s2l "lit")); (SRegexp (s2l " foo") 0)])]); SNil; STrue]));
  (510, [49; 32; 43; 32; 50; 10; 51; 32; 43; 32; 52]%N, Some (s [(SSym (s2l "block")); (s [(SSym (s2l "call")); (s [(SSym (s2l "lit")); (SInt (1))]); (SSym (s2l "+")); (s [(SSym (s2l "lit")); (SInt (2))])]); (s [(SSym (s2l "call")); (s [(SSym (s2l "lit")); (SInt (3))]); (SSym (s2l "+")); (s [(SSym (s2l "lit")); (SInt (4))])])]));
  (511, (s2l "1 + 2;'foo'"), Some (s [(SSym (s2l "block")); (s [(SSym (s2l "call")); (s [(SSym (s2l "lit")); (SInt (1))]); (SSym (s2l "+")); (s [(SSym (s2l "lit")); (SInt (2))])]); (s [(SSym (s2l "str")); (SStr (s2l "foo"))])]));
  (515, (s2l "foo::bar"), Some (s [(SSym (s2l "call")); (s [(SSym (s2l "call")); SNil; (SSym (s2l "foo"))]); (SSym (s2l "bar"))]));
  (516, (s2l "foo::Bar"), Some (s [(SSym (s2l "colon2")); (s [(SSym (s2l "call")); SNil; (SSym (s2l "foo"))]); (SSym (s2l "Bar"))]));
  (517, (s2l "foo::()"), Some (s [(SSym (s2l "call")); (s [(SSym (s2l "call")); SNil; (SSym (s2l "foo"))]); (SSym (s2l "call"))]));
  (518, (s2l "foo::(1, 2)"), Some (s [(SSym (s2l "call")); (s [(SSym (s2l "call")); SNil; (SSym (s2l "foo"))]); (SSym (s2l "call")); (s [(SSym (s2l "lit")); (SInt (1))]); (s [(SSym (s2l "lit")); (SInt (2))])]));
  (519, (s2l "foo::-@"), Some (s [(SSym (s2l "call")); (s [(SSym (s2l "call")); SNil; (SSym (s2l "foo"))]); (SSym (s2l "-@"))]));
  (520, (s2l "foo::-"), Some (s [(SSym (s2l "call")); (s [(SSym (s2l "call")); SNil; (SSym (s2l "foo"))]); (SSym (s2l "-"))]));
  (524, (s2l "x = 1"), Some (s [(SSym (s2l "lasgn")); (SSym (s2l "x")); (s [(SSym (s2l "lit")); (SInt (1))])]));
  (525, (s2l "x = 1 + 2"), Some (s [(SSym (s2l "lasgn")); (SSym (s2l "x")); (s [(SSym (s2l "call")); (s [(SSym (s2l "lit")); (SInt (1))]); (SSym (s2l "+")); (s [(SSym (s2l "lit")); (SInt (2))])])]));
  (527, (s2l "x ="), None);
  (528, (s2l "[1] = 2"), None);
  (533, (s2l "@foo = 1"), Some (s [(SSym (s2l "iasgn")); (SSym (s2l "@foo")); (s [(SSym (s2l "lit")); (SInt (1))])]));
  (534, (s2l "@@abc_123 = 1"), Some (s [(SSym (s2l "cvdecl")); (SSym (s2l "@@abc_123")); (s [(SSym (s2l "lit")); (SInt (1))])]));
  (535, (s2l "$baz = 1"), Some (s [(SSym (s2l "gasgn")); (SSym (s2l "$baz")); (s [(SSym (s2l "lit")); (SInt (1))])]));
  (536, (s2l "Constant = 1"), Some (s [(SSym (s2l "cdecl")); (SSym (s2l "Constant")); (s [(SSym (s2l "lit")); (SInt (1))])]));
  (537, (s2l "x, y = [1, 2]"), Some (s [(SSym (s2l "masgn")); (s [(SSym (s2l "array")); (s [(SSym (s2l "lasgn")); (SSym (s2l "x"))]); (s [(SSym (s2l "lasgn")); (SSym (s2l "y"))])]); (s [(SSym (s2l "to_ary")); (s [(SSym (s2l "array")); (s [(SSym (s2l "lit")); (SInt (1))]); (s [(SSym (s2l "lit")); (SInt (2))])])])]));
  (538, (s2l "(x, y) = [1, 2]"), Some (s [(SSym (s2l "masgn")); (s [(SSym (s2l "array")); (s [(SSym (s2l "lasgn")); (SSym (s2l "x"))]); (s [(SSym (s2l "lasgn")); (SSym (s2l "y"))])]); (s [(SSym (s2l "to_ary")); (s [(SSym (s2l "array")); (s [(SSym (s2l "lit")); (SInt (1))]); (s [(SSym (s2l "lit")); (SInt (2))])])])]));
  (540, (s2l "(x) = [1, 2]"), None);
  (541, (s2l "(x, = [1, 2]"), None);
  (542, (s2l "x,) = [1, 2]"), None);
  (548, (s2l "x, = [1, 2]"), Some (s [(SSym (s2l "masgn")); (s [(SSym (s2l "array")); (s [(SSym (s2l "lasgn")); (SSym (s2l "x"))])]); (s [(SSym (s2l "to_ary")); (s [(SSym (s2l "array")); (s [(SSym (s2l "lit")); (SInt (1))]); (s [(SSym (s2l "lit")); (SInt (2))])])])]));
  (549, (s2l "(x,) = [1, 2]"), Some (s [(SSym (s2l "masgn")); (s [(SSym (s2l "array")); (s [(SSym (s2l "lasgn")); (SSym (s2l "x"))])]); (s [(SSym (s2l "to_ary")); (s [(SSym (s2l "array")); (s [(SSym (s2l "lit")); (SInt (1))]); (s [(SSym (s2l "lit")); (SInt (2))])])])]));
  (550, (s2l "(x, y, ) = [1, 2]"), Some (s [(SSym (s2l "masgn")); (s [(SSym (s2l "array")); (s [(SSym (s2l "lasgn")); (SSym (s2l "x"))]); (s [(SSym (s2l "lasgn")); (SSym (s2l "y"))])]); (s [(SSym (s2l "to_ary")); (s [(SSym (s2l "array")); (s [(SSym (s2l "lit")); (SInt (1))]); (s [(SSym (s2l "lit")); (SInt (2))])])])]));
  (551, (s2l "((x, y)) = [1, 2]"), Some (s [(SSym (s2l "masgn")); (s [(SSym (s2l "array")); (s [(SSym (s2l "masgn")); (s [(SSym (s2l "array")); (s [(SSym (s2l "lasgn")); (SSym (s2l "x"))]); (s [(SSym (s2l "lasgn")); (SSym (s2l "y"))])])])]); (s [(SSym (s2l "to_ary")); (s [(SSym (s2l "array")); (s [(SSym (s2l "lit")); (SInt (1))]); (s [(SSym (s2l "lit")); (SInt (2))])])])]));
  (552, (s2l "((x, y),) = [1, 2]"), Some (s [(SSym (s2l "masgn")); (s [(SSym (s2l "array")); (s [(SSym (s2l "masgn")); (s [(SSym (s2l "array")); (s [(SSym (s2l "lasgn")); (SSym (s2l "x"))]); (s [(SSym (s2l "lasgn")); (SSym (s2l "y"))])])])]); (s [(SSym (s2l "to_ary")); (s [(SSym (s2l "array")); (s [(SSym (s2l "lit")); (SInt (1))]); (s [(SSym (s2l "lit")); (SInt (2))])])])]));
  (553, (s2l "(((x, y))) = [1, 2]"), Some (s [(SSym (s2l "masgn")); (s [(SSym (s2l "array")); (s [(SSym (s2l "masgn")); (s [(SSym (s2l "array")); (s [(SSym (s2l "masgn")); (s [(SSym (s2l "array")); (s [(SSym (s2l "lasgn")); (SSym (s2l "x"))]); (s [(SSym (s2l "lasgn")); (SSym (s2l "y"))])])])])])]); (s [(SSym (s2l "to_ary")); (s [(SSym (s2l "array")); (s [(SSym (s2l "lit")); (SInt (1))]); (s [(SSym (s2l "lit")); (SInt (2))])])])]));
  (554, (s2l "(((x, y),)) = [1, 2]"), Some (s [(SSym (s2l "masgn")); (s [(SSym (s2l "array")); (s [(SSym (s2l "masgn")); (s [(SSym (s2l "array")); (s [(SSym (s2l "masgn")); (s [(SSym (s2l "array")); (s [(SSym (s2l "lasgn")); (SSym (s2l "x"))]); (s [(SSym (s2l "lasgn")); (SSym (s2l "y"))])])])])])]); (s [(SSym (s2l "to_ary")); (s [(SSym (s2l "array")); (s [(SSym (s2l "lit")); (SInt (1))]); (s [(SSym (s2l "lit")); (SInt (2))])])])]));
  (555, (s2l "(((x, y)),) = [1, 2]"), Some (s [(SSym (s2l "masgn")); (s [(SSym (s2l "array")); (s [(SSym (s2l "masgn")); (s [(SSym (s2l "array")); (s [(SSym (s2l "masgn")); (s [(SSym (s2l "array")); (s [(SSym (s2l "lasgn")); (SSym (s2l "x"))]); (s [(SSym (s2l "lasgn")); (SSym (s2l "y"))])])])])])]); (s [(SSym (s2l "to_ary")); (s [(SSym (s2l "array")); (s [(SSym (s2l "lit")); (SInt (1))]); (s [(SSym (s2l "lit")); (SInt (2))])])])]));
  (556, (s2l "@x, $y, Z = foo"), Some (s [(SSym (s2l "masgn")); (s [(SSym (s2l "array")); (s [(SSym (s2l "iasgn")); (SSym (s2l "@x"))]); (s [(SSym (s2l "gasgn")); (SSym (s2l "$y"))]); (s [(SSym (s2l "cdecl")); (SSym (s2l "Z"))])]); (s [(SSym (s2l "to_ary")); (s [(SSym (s2l "call")); SNil; (SSym (s2l "foo"))])])]));
  (557, (s2l "(@x, $y, Z) = foo"), Some (s [(SSym (s2l "masgn")); (s [(SSym (s2l "array")); (s [(SSym (s2l "iasgn")); (SSym (s2l "@x"))]); (s [(SSym (s2l "gasgn")); (SSym (s2l "$y"))]); (s [(SSym (s2l "cdecl")); (SSym (s2l "Z"))])]); (s [(SSym (s2l "to_ary")); (s [(SSym (s2l "call")); SNil; (SSym (s2l "foo"))])])]));
  (558, (s2l "(a, (b, c)) = [1, [2, 3]]"), Some (s [(SSym (s2l "masgn")); (s [(SSym (s2l "array")); (s [(SSym (s2l "lasgn")); (SSym (s2l "a"))]); (s [(SSym (s2l "masgn")); (s [(SSym (s2l "array")); (s [(SSym (s2l "lasgn")); (SSym (s2l "b"))]); (s [(SSym (s2l "lasgn")); (SSym (s2l "c"))])])])]); (s [(SSym (s2l "to_ary")); (s [(SSym (s2l "array")); (s [(SSym (s2l "lit")); (SInt (1))]); (s [(SSym (s2l "array")); (s [(SSym (s2l "lit")); (SInt (2))]); (s [(SSym (s2l "lit")); (SInt (3))])])])])]));
  (559, (s2l "(a, b), c = [[1, 2], 3]"), Some (s [(SSym (s2l "masgn")); (s [(SSym (s2l "array")); (s [(SSym (s2l "masgn")); (s [(SSym (s2l "array")); (s [(SSym (s2l "lasgn")); (SSym (s2l "a"))]); (s [(SSym (s2l "lasgn")); (SSym (s2l "b"))])])]); (s [(SSym (s2l "lasgn")); (SSym (s2l "c"))])]); (s [(SSym (s2l "to_ary")); (s [(SSym (s2l "array")); (s [(SSym (s2l "array")); (s [(SSym (s2l "lit")); (SInt (1))]); (s [(SSym (s2l "lit")); (SInt (2))])]); (s [(SSym (s2l "lit")); (SInt (3))])])])]));
  (560, (s2l "((a, b), c) = [[1, 2], 3]"), Some (s [(SSym (s2l "masgn")); (s [(SSym (s2l "array")); (s [(SSym (s2l "masgn")); (s [(SSym (s2l "array")); (s [(SSym (s2l "lasgn")); (SSym (s2l "a"))]); (s [(SSym (s2l "lasgn")); (SSym (s2l "b"))])])]); (s [(SSym (s2l "lasgn")); (SSym (s2l "c"))])]); (s [(SSym (s2l "to_ary")); (s [(SSym (s2l "array")); (s [(SSym (s2l "array")); (s [(SSym (s2l "lit")); (SInt (1))]); (s [(SSym (s2l "lit")); (SInt (2))])]); (s [(SSym (s2l "lit")); (SInt (3))])])])]));
  (561, (s2l "a, (b, c) = [1, [2, 3]]"), Some (s [(SSym (s2l "masgn")); (s [(SSym (s2l "array")); (s [(SSym (s2l "lasgn")); (SSym (s2l "a"))]); (s [(SSym (s2l "masgn")); (s [(SSym (s2l "array")); (s [(SSym (s2l "lasgn")); (SSym (s2l "b"))]); (s [(SSym (s2l "lasgn")); (SSym (s2l "c"))])])])]); (s [(SSym (s2l "to_ary")); (s [(SSym (s2l "array")); (s [(SSym (s2l "lit")); (SInt (1))]); (s [(SSym (s2l "array")); (s [(SSym (s2l "lit")); (SInt (2))]); (s [(SSym (s2l "lit")); (SInt (3))])])])])]));
  (562, (s2l "a, (b, *c) = [1, [2, 3, 4]]"), Some (s [(SSym (s2l "masgn")); (s [(SSym (s2l "array")); (s [(SSym (s2l "lasgn")); (SSym (s2l "a"))]); (s [(SSym (s2l "masgn")); (s [(SSym (s2l "array")); (s [(SSym (s2l "lasgn")); (SSym (s2l "b"))]); (s [(SSym (s2l "splat")); (s [(SSym (s2l "lasgn")); (SSym (s2l "c"))])])])])]); (s [(SSym (s2l "to_ary")); (s [(SSym (s2l "array")); (s [(SSym (s2l "lit")); (SInt (1))]); (s [(SSym (s2l "array")); (s [(SSym (s2l "lit")); (SInt (2))]); (s [(SSym (s2l "lit")); (SInt (3))]); (s [(SSym (s2l "lit")); (SInt (4))])])])])]));
  (563, (s2l "a, (b, *@c) = [1, [2, 3, 4]]"), Some (s [(SSym (s2l "masgn")); (s [(SSym (s2l "array")); (s [(SSym (s2l "lasgn")); (SSym (s2l "a"))]); (s [(SSym (s2l "masgn")); (s [(SSym (s2l "array")); (s [(SSym (s2l "lasgn")); (SSym (s2l "b"))]); (s [(SSym (s2l "splat")); (s [(SSym (s2l "iasgn")); (SSym (s2l "@c"))])])])])]); (s [(SSym (s2l "to_ary")); (s [(SSym (s2l "array")); (s [(SSym (s2l "lit")); (SInt (1))]); (s [(SSym (s2l "array")); (s [(SSym (s2l "lit")); (SInt (2))]); (s [(SSym (s2l "lit")); (SInt (3))]); (s [(SSym (s2l "lit")); (SInt (4))])])])])]));
  (564, (s2l "_, a, *b = [1, 2, 3, 4]"), Some (s [(SSym (s2l "masgn")); (s [(SSym (s2l "array")); (s [(SSym (s2l "lasgn")); (SSym (s2l "_"))]); (s [(SSym (s2l "lasgn")); (SSym (s2l "a"))]); (s [(SSym (s2l "splat")); (s [(SSym (s2l "lasgn")); (SSym (s2l "b"))])])]); (s [(SSym (s2l "to_ary")); (s [(SSym (s2l "array")); (s [(SSym (s2l "lit")); (SInt (1))]); (s [(SSym (s2l "lit")); (SInt (2))]); (s [(SSym (s2l "lit")); (SInt (3))]); (s [(SSym (s2l "lit")); (SInt (4))])])])]));
  (565, (s2l "(_, a, *b) = [1, 2, 3, 4]"), Some (s [(SSym (s2l "masgn")); (s [(SSym (s2l "array")); (s [(SSym (s2l "lasgn")); (SSym (s2l "_"))]); (s [(SSym (s2l "lasgn")); (SSym (s2l "a"))]); (s [(SSym (s2l "splat")); (s [(SSym (s2l "lasgn")); (SSym (s2l "b"))])])]); (s [(SSym (s2l "to_ary")); (s [(SSym (s2l "array")); (s [(SSym (s2l "lit")); (SInt (1))]); (s [(SSym (s2l "lit")); (SInt (2))]); (s [(SSym (s2l "lit")); (SInt (3))]); (s [(SSym (s2l "lit")); (SInt (4))])])])]));
  (566, (s2l "(a, *) = [1, 2, 3, 4]"), Some (s [(SSym (s2l "masgn")); (s [(SSym (s2l "array")); (s [(SSym (s2l "lasgn")); (SSym (s2l "a"))]); (s [(SSym (s2l "splat"))])]); (s [(SSym (s2l "to_ary")); (s [(SSym (s2l "array")); (s [(SSym (s2l "lit")); (SInt (1))]); (s [(SSym (s2l "lit")); (SInt (2))]); (s [(SSym (s2l "lit")); (SInt (3))]); (s [(SSym (s2l "lit")); (SInt (4))])])])]));
  (567, (s2l "(a, *, c) = [1, 2, 3, 4]"), Some (s [(SSym (s2l "masgn")); (s [(SSym (s2l "array")); (s [(SSym (s2l "lasgn")); (SSym (s2l "a"))]); (s [(SSym (s2l "splat"))]); (s [(SSym (s2l "lasgn")); (SSym (s2l "c"))])]); (s [(SSym (s2l "to_ary")); (s [(SSym (s2l "array")); (s [(SSym (s2l "lit")); (SInt (1))]); (s [(SSym (s2l "lit")); (SInt (2))]); (s [(SSym (s2l "lit")); (SInt (3))]); (s [(SSym (s2l "lit")); (SInt (4))])])])]));
  (568, (s2l "x = foo.bar"), Some (s [(SSym (s2l "lasgn")); (SSym (s2l "x")); (s [(SSym (s2l "call")); (s [(SSym (s2l "call")); SNil; (SSym (s2l "foo"))]); (SSym (s2l "bar"))])]));
  (569, (s2l "x = y = 2"), Some (s [(SSym (s2l "lasgn")); (SSym (s2l "x")); (s [(SSym (s2l "lasgn")); (SSym (s2l "y")); (s [(SSym (s2l "lit")); (SInt (2))])])]));
  (570, (s2l "x = y = z = 2"), Some (s [(SSym (s2l "lasgn")); (SSym (s2l "x")); (s [(SSym (s2l "lasgn")); (SSym (s2l "y")); (s [(SSym (s2l "lasgn")); (SSym (s2l "z")); (s [(SSym (s2l "lit")); (SInt (2))])])])]));
  (571, (s2l "x = 1, 2"), Some (s [(SSym (s2l "lasgn")); (SSym (s2l "x")); (s [(SSym (s2l "svalue")); (s [(SSym (s2l "array")); (s [(SSym (s2l "lit")); (SInt (1))]); (s [(SSym (s2l "lit")); (SInt (2))])])])]));
  (572, (s2l "x, y = 1, 2"), Some (s [(SSym (s2l "masgn")); (s [(SSym (s2l "array")); (s [(SSym (s2l "lasgn")); (SSym (s2l "x"))]); (s [(SSym (s2l "lasgn")); (SSym (s2l "y"))])]); (s [(SSym (s2l "array")); (s [(SSym (s2l "lit")); (SInt (1))]); (s [(SSym (s2l "lit")); (SInt (2))])])]));
  (573, (s2l "x, y = 1"), Some (s [(SSym (s2l "masgn")); (s [(SSym (s2l "array")); (s [(SSym (s2l "lasgn")); (SSym (s2l "x"))]); (s [(SSym (s2l "lasgn")); (SSym (s2l "y"))])]); (s [(SSym (s2l "to_ary")); (s [(SSym (s2l "lit")); (SInt (1))])])]));
  (574, (s2l "x = *[1, 2]"), Some (s [(SSym (s2l "lasgn")); (SSym (s2l "x")); (s [(SSym (s2l "svalue")); (s [(SSym (s2l "splat")); (s [(SSym (s2l "array")); (s [(SSym (s2l "lit")); (SInt (1))]); (s [(SSym (s2l "lit")); (SInt (2))])])])])]));
  (575, (s2l "x, y = *[1, 2]"), Some (s [(SSym (s2l "masgn")); (s [(SSym (s2l "array")); (s [(SSym (s2l "lasgn")); (SSym (s2l "x"))]); (s [(SSym (s2l "lasgn")); (SSym (s2l "y"))])]); (s [(SSym (s2l "splat")); (s [(SSym (s2l "array")); (s [(SSym (s2l "lit")); (SInt (1))]); (s [(SSym (s2l "lit")); (SInt (2))])])])]));
  (576, (s2l "* = f"), Some (s [(SSym (s2l "masgn")); (s [(SSym (s2l "array")); (s [(SSym (s2l "splat"))])]); (s [(SSym (s2l "to_ary")); (s [(SSym (s2l "call")); SNil; (SSym (s2l "f"))])])]));
  (577, (s2l "*, x = f"), Some (s [(SSym (s2l "masgn")); (s [(SSym (s2l "array")); (s [(SSym (s2l "splat"))]); (s [(SSym (s2l "lasgn")); (SSym (s2l "x"))])]); (s [(SSym (s2l "to_ary")); (s [(SSym (s2l "call")); SNil; (SSym (s2l "f"))])])]));
  (578, (s2l "x, *, y = f"), Some (s [(SSym (s2l "masgn")); (s [(SSym (s2l "array")); (s [(SSym (s2l "lasgn")); (SSym (s2l "x"))]); (s [(SSym (s2l "splat"))]); (s [(SSym (s2l "lasgn")); (SSym (s2l "y"))])]); (s [(SSym (s2l "to_ary")); (s [(SSym (s2l "call")); SNil; (SSym (s2l "f"))])])]));
  (579, (s2l "x, * = f"), Some (s [(SSym (s2l "masgn")); (s [(SSym (s2l "array")); (s [(SSym (s2l "lasgn")); (SSym (s2l "x"))]); (s [(SSym (s2l "splat"))])]); (s [(SSym (s2l "to_ary")); (s [(SSym (s2l "call")); SNil; (SSym (s2l "f"))])])]));
  (580, (s2l "::FOO = 1"), Some (s [(SSym (s2l "cdecl")); (s [(SSym (s2l "colon3")); (SSym (s2l "FOO"))]); (s [(SSym (s2l "lit")); (SInt (1))])]));
  (581, (s2l "Foo::BAR = 1"), Some (s [(SSym (s2l "cdecl")); (s [(SSym (s2l "colon2")); (s [(SSym (s2l "const")); (SSym (s2l "Foo"))]); (SSym (s2l "BAR"))]); (s [(SSym (s2l "lit")); (SInt (1))])]));
  (584, (s2l "A, B::C = 1, 2"), Some (s [(SSym (s2l "masgn")); (s [(SSym (s2l "array")); (s [(SSym (s2l "cdecl")); (SSym (s2l "A"))]); (s [(SSym (s2l "cdecl")); (s [(SSym (s2l "colon2")); (s [(SSym (s2l "const")); (SSym (s2l "B"))]); (SSym (s2l "C"))])])]); (s [(SSym (s2l "array")); (s [(SSym (s2l "lit")); (SInt (1))]); (s [(SSym (s2l "lit")); (SInt (2))])])]));
  (585, (s2l "A, ::B = 1, 2"), Some (s [(SSym (s2l "masgn")); (s [(SSym (s2l "array")); (s [(SSym (s2l "cdecl")); (SSym (s2l "A"))]); (s [(SSym (s2l "cdecl")); (s [(SSym (s2l "colon3")); (SSym (s2l "B"))])])]); (s [(SSym (s2l "array")); (s [(SSym (s2l "lit")); (SInt (1))]); (s [(SSym (s2l "lit")); (SInt (2))])])]));
  (586, (s2l "::A, ::B = 1, 2"), Some (s [(SSym (s2l "masgn")); (s [(SSym (s2l "array")); (s [(SSym (s2l "cdecl")); (s [(SSym (s2l "colon3")); (SSym (s2l "A"))])]); (s [(SSym (s2l "cdecl")); (s [(SSym (s2l "colon3")); (SSym (s2l "B"))])])]); (s [(SSym (s2l "array")); (s [(SSym (s2l "lit")); (SInt (1))]); (s [(SSym (s2l "lit")); (SInt (2))])])]));
  (587, (s2l "A::B, ::C = 1, 2"), Some (s [(SSym (s2l "masgn")); (s [(SSym (s2l "array")); (s [(SSym (s2l "cdecl")); (s [(SSym (s2l "colon2")); (s [(SSym (s2l "const")); (SSym (s2l "A"))]); (SSym (s2l "B"))])]); (s [(SSym (s2l "cdecl")); (s [(SSym (s2l "colon3")); (SSym (s2l "C"))])])]); (s [(SSym (s2l "array")); (s [(SSym (s2l "lit")); (SInt (1))]); (s [(SSym (s2l "lit")); (SInt (2))])])]));
  (594, (s2l "a.b, c = 1, 2"), Some (s [(SSym (s2l "masgn")); (s [(SSym (s2l "array")); (s [(SSym (s2l "attrasgn")); (s [(SSym (s2l "call")); SNil; (SSym (s2l "a"))]); (SSym (s2l "b="))]); (s [(SSym (s2l "lasgn")); (SSym (s2l "c"))])]); (s [(SSym (s2l "array")); (s [(SSym (s2l "lit")); (SInt (1))]); (s [(SSym (s2l "lit")); (SInt (2))])])]));
  (595, (s2l "a, b.c = 1, 2"), Some (s [(SSym (s2l "masgn")); (s [(SSym (s2l "array")); (s [(SSym (s2l "lasgn")); (SSym (s2l "a"))]); (s [(SSym (s2l "attrasgn")); (s [(SSym (s2l "call")); SNil; (SSym (s2l "b"))]); (SSym (s2l "c="))])]); (s [(SSym (s2l "array")); (s [(SSym (s2l "lit")); (SInt (1))]); (s [(SSym (s2l "lit")); (SInt (2))])])]));
  (596, (s2l "a, b.c.d = 1, 2"), Some (s [(SSym (s2l "masgn")); (s [(SSym (s2l "array")); (s [(SSym (s2l "lasgn")); (SSym (s2l "a"))]); (s [(SSym (s2l "attrasgn")); (s [(SSym (s2l "call")); (s [(SSym (s2l "call")); SNil; (SSym (s2l "b"))]); (SSym (s2l "c"))]); (SSym (s2l "d="))])]); (s [(SSym (s2l "array")); (s [(SSym (s2l "lit")); (SInt (1))]); (s [(SSym (s2l "lit")); (SInt (2))])])]));
  (597, (s2l "*a, b = 1, 2"), Some (s [(SSym (s2l "masgn")); (s [(SSym (s2l "array")); (s [(SSym (s2l "splat")); (s [(SSym (s2l "lasgn")); (SSym (s2l "a"))])]); (s [(SSym (s2l "lasgn")); (SSym (s2l "b"))])]); (s [(SSym (s2l "array")); (s [(SSym (s2l "lit")); (SInt (1))]); (s [(SSym (s2l "lit")); (SInt (2))])])]));
  (598, (s2l "*a.b, c = 1, 2"), Some (s [(SSym (s2l "masgn")); (s [(SSym (s2l "array")); (s [(SSym (s2l "splat")); (s [(SSym (s2l "attrasgn")); (s [(SSym (s2l "call")); SNil; (SSym (s2l "a"))]); (SSym (s2l "b="))])]); (s [(SSym (s2l "lasgn")); (SSym (s2l "c"))])]); (s [(SSym (s2l "array")); (s [(SSym (s2l "lit")); (SInt (1))]); (s [(SSym (s2l "lit")); (SInt (2))])])]));
  (599, (s2l "a, *b.c = 1, 2"), Some (s [(SSym (s2l "masgn")); (s [(SSym (s2l "array")); (s [(SSym (s2l "lasgn")); (SSym (s2l "a"))]); (s [(SSym (s2l "splat")); (s [(SSym (s2l "attrasgn")); (s [(SSym (s2l "call")); SNil; (SSym (s2l "b"))]); (SSym (s2l "c="))])])]); (s [(SSym (s2l "array")); (s [(SSym (s2l "lit")); (SInt (1))]); (s [(SSym (s2l "lit")); (SInt (2))])])]));
  (600, (s2l "a, b[c] = 1, 2"), Some (s [(SSym (s2l "masgn")); (s [(SSym (s2l "array")); (s [(SSym (s2l "lasgn")); (SSym (s2l "a"))]); (s [(SSym (s2l "attrasgn")); (s [(SSym (s2l "call")); SNil; (SSym (s2l "b"))]); (SSym (s2l "[]=")); (s [(SSym (s2l "call")); SNil; (SSym (s2l "c"))])])]); (s [(SSym (s2l "array")); (s [(SSym (s2l "lit")); (SInt (1))]); (s [(SSym (s2l "lit")); (SInt (2))])])]));
  (601, (s2l "a, b[c][d] = 1, 2"), Some (s [(SSym (s2l "masgn")); (s [(SSym (s2l "array")); (s [(SSym (s2l "lasgn")); (SSym (s2l "a"))]); (s [(SSym (s2l "attrasgn")); (s [(SSym (s2l "call")); (s [(SSym (s2l "call")); SNil; (SSym (s2l "b"))]); (SSym (s2l "[]")); (s [(SSym (s2l "call")); SNil; (SSym (s2l "c"))])]); (SSym (s2l "[]=")); (s [(SSym (s2l "call")); SNil; (SSym (s2l "d"))])])]); (s [(SSym (s2l "array")); (s [(SSym (s2l "lit")); (SInt (1))]); (s [(SSym (s2l "lit")); (SInt (2))])])]));
  (602, (s2l "h[:foo], h[:bar] = 1, 2"), Some (s [(SSym (s2l "masgn")); (s [(SSym (s2l "array")); (s [(SSym (s2l "attrasgn")); (s [(SSym (s2l "call")); SNil; (SSym (s2l "h"))]); (SSym (s2l "[]=")); (s [(SSym (s2l "lit")); (SSym (s2l "foo"))])]); (s [(SSym (s2l "attrasgn")); (s [(SSym (s2l "call")); SNil; (SSym (s2l "h"))]); (SSym (s2l "[]=")); (s [(SSym (s2l "lit")); (SSym (s2l "bar"))])])]); (s [(SSym (s2l "array")); (s [(SSym (s2l "lit")); (SInt (1))]); (s [(SSym (s2l "lit")); (SInt (2))])])]));
  (603, (s2l "*a = 1, 2"), Some (s [(SSym (s2l "masgn")); (s [(SSym (s2l "array")); (s [(SSym (s2l "splat")); (s [(SSym (s2l "lasgn")); (SSym (s2l "a"))])])]); (s [(SSym (s2l "array")); (s [(SSym (s2l "lit")); (SInt (1))]); (s [(SSym (s2l "lit")); (SInt (2))])])]));
  (604, (s2l "x = 1 && 2 && 3"), Some (s [(SSym (s2l "lasgn")); (SSym (s2l "x")); (s [(SSym (s2l "and")); (s [(SSym (s2l "lit")); (SInt (1))]); (s [(SSym (s2l "and")); (s [(SSym (s2l "lit")); (SInt (2))]); (s [(SSym (s2l "lit")); (SInt (3))])])])]));
  (605, (s2l "true && false && x = 1"), Some (s [(SSym (s2l "and")); (s [(SSym (s2l "true"))]); (s [(SSym (s2l "and")); (s [(SSym (s2l "false"))]); (s [(SSym (s2l "lasgn")); (SSym (s2l "x")); (s [(SSym (s2l "lit")); (SInt (1))])])])]));
  (606, (s2l "true and false and x = 1"), Some (s [(SSym (s2l "and")); (s [(SSym (s2l "true"))]); (s [(SSym (s2l "and")); (s [(SSym (s2l "false"))]); (s [(SSym (s2l "lasgn")); (SSym (s2l "x")); (s [(SSym (s2l "lit")); (SInt (1))])])])]));
  (607, (s2l "x = 1 && 2 && 3"), Some (s [(SSym (s2l "lasgn")); (SSym (s2l "x")); (s [(SSym (s2l "and")); (s [(SSym (s2l "lit")); (SInt (1))]); (s [(SSym (s2l "and")); (s [(SSym (s2l "lit")); (SInt (2))]); (s [(SSym (s2l "lit")); (SInt (3))])])])]));
  (608, (s2l "x = 1 and 2 and 3"), Some (s [(SSym (s2l "and")); (s [(SSym (s2l "lasgn")); (SSym (s2l "x")); (s [(SSym (s2l "lit")); (SInt (1))])]); (s [(SSym (s2l "and")); (s [(SSym (s2l "lit")); (SInt (2))]); (s [(SSym (s2l "lit")); (SInt (3))])])]));
  (610, (s2l "x, y+z = 1, 2"), None);
  (611, (s2l "-x, y = 1, 2"), None);
  (612, (s2l "foo, (bar=1, baz) = buz"), None);
  (618, (s2l "a&.b = 1"), Some (s [(SSym (s2l "safe_attrasgn")); (s [(SSym (s2l "call")); SNil; (SSym (s2l "a"))]); (SSym (s2l "b=")); (s [(SSym (s2l "lit")); (SInt (1))])]))].
Example parser_test_1_passes : forallb passes parser_test_1 = true.
Proof. vm_compute. reflexivity. Qed.

(** /repo/test/parser_test.rb, lines 619-754. *)
Definition parser_test_2 : list (N * str * option sexp) := [
  (619, (s2l "a&.B = 1"), Some (s [(SSym (s2l "safe_attrasgn")); (s [(SSym (s2l "call")); SNil; (SSym (s2l "a"))]); (SSym (s2l "B=")); (s [(SSym (s2l "lit")); (SInt (1))])]));
  (623, [120; 44; 10; 121; 32; 61; 32; 49]%N, Some (s [(SSym (s2l "masgn")); (s [(SSym (s2l "array")); (s [(SSym (s2l "lasgn")); (SSym (s2l "x"))]); (s [(SSym (s2l "lasgn")); (SSym (s2l "y"))])]); (s [(SSym (s2l "to_ary")); (s [(SSym (s2l "lit")); (SInt (1))])])]));
  (631, (s2l "x.y = 1"), Some (s [(SSym (s2l "attrasgn")); (s [(SSym (s2l "call")); SNil; (SSym (s2l "x"))]); (SSym (s2l "y=")); (s [(SSym (s2l "lit")); (SInt (1))])]));
  (632, (s2l "x[y] = 1"), Some (s [(SSym (s2l "attrasgn")); (s [(SSym (s2l "call")); SNil; (SSym (s2l "x"))]); (SSym (s2l "[]=")); (s [(SSym (s2l "call")); SNil; (SSym (s2l "y"))]); (s [(SSym (s2l "lit")); (SInt (1))])]));
  (633, (s2l "foo[a, b] = :bar"), Some (s [(SSym (s2l "attrasgn")); (s [(SSym (s2l "call")); SNil; (SSym (s2l "foo"))]); (SSym (s2l "[]=")); (s [(SSym (s2l "call")); SNil; (SSym (s2l "a"))]); (s [(SSym (s2l "call")); SNil; (SSym (s2l "b"))]); (s [(SSym (s2l "lit")); (SSym (s2l "bar"))])]));
  (634, (s2l "foo[] = :bar"), Some (s [(SSym (s2l "attrasgn")); (s [(SSym (s2l "call")); SNil; (SSym (s2l "foo"))]); (SSym (s2l "[]=")); (s [(SSym (s2l "lit")); (SSym (s2l "bar"))])]));
  (635, (s2l "foo.bar=x"), Some (s [(SSym (s2l "attrasgn")); (s [(SSym (s2l "call")); SNil; (SSym (s2l "foo"))]); (SSym (s2l "bar=")); (s [(SSym (s2l "call")); SNil; (SSym (s2l "x"))])]));
  (639, (s2l "foo[1]"), Some (s [(SSym (s2l "call")); (s [(SSym (s2l "call")); SNil; (SSym (s2l "foo"))]); (SSym (s2l "[]")); (s [(SSym (s2l "lit")); (SInt (1))])]));
  (640, (s2l "foo[1,]"), Some (s [(SSym (s2l "call")); (s [(SSym (s2l "call")); SNil; (SSym (s2l "foo"))]); (SSym (s2l "[]")); (s [(SSym (s2l "lit")); (SInt (1))])]));
  (641, (s2l "foo[1=>2]"), Some (s [(SSym (s2l "call")); (s [(SSym (s2l "call")); SNil; (SSym (s2l "foo"))]); (SSym (s2l "[]")); (s [(SSym (s2l "bare_hash")); (s [(SSym (s2l "lit")); (SInt (1))]); (s [(SSym (s2l "lit")); (SInt (2))])])]));
  (642, (s2l "foo[1=>2,]"), Some (s [(SSym (s2l "call")); (s [(SSym (s2l "call")); SNil; (SSym (s2l "foo"))]); (SSym (s2l "[]")); (s [(SSym (s2l "bare_hash")); (s [(SSym (s2l "lit")); (SInt (1))]); (s [(SSym (s2l "lit")); (SInt (2))])])]));
  (643, (s2l "foo [1]"), Some (s [(SSym (s2l "call")); SNil; (SSym (s2l "foo")); (s [(SSym (s2l "array")); (s [(SSym (s2l "lit")); (SInt (1))])])]));
  (644, (s2l "foo = []; foo[1]"), Some (s [(SSym (s2l "block")); (s [(SSym (s2l "lasgn")); (SSym (s2l "foo")); (s [(SSym (s2l "array"))])]); (s [(SSym (s2l "call")); (s [(SSym (s2l "lvar")); (SSym (s2l "foo"))]); (SSym (s2l "[]")); (s [(SSym (s2l "lit")); (SInt (1))])])]));
  (645, (s2l "foo = [1]; foo[1]"), Some (s [(SSym (s2l "block")); (s [(SSym (s2l "lasgn")); (SSym (s2l "foo")); (s [(SSym (s2l "array")); (s [(SSym (s2l "lit")); (SInt (1))])])]); (s [(SSym (s2l "call")); (s [(SSym (s2l "lvar")); (SSym (s2l "foo"))]); (SSym (s2l "[]")); (s [(SSym (s2l "lit")); (SInt (1))])])]));
  (646, (s2l "foo = []; foo [1]"), Some (s [(SSym (s2l "block")); (s [(SSym (s2l "lasgn")); (SSym (s2l "foo")); (s [(SSym (s2l "array"))])]); (s [(SSym (s2l "call")); (s [(SSym (s2l "lvar")); (SSym (s2l "foo"))]); (SSym (s2l "[]")); (s [(SSym (s2l "lit")); (SInt (1))])])]));
  (647, (s2l "foo = []; foo [1, 2]"), Some (s [(SSym (s2l "block")); (s [(SSym (s2l "lasgn")); (SSym (s2l "foo")); (s [(SSym (s2l "array"))])]); (s [(SSym (s2l "call")); (s [(SSym (s2l "lvar")); (SSym (s2l "foo"))]); (SSym (s2l "[]")); (s [(SSym (s2l "lit")); (SInt (1))]); (s [(SSym (s2l "lit")); (SInt (2))])])]));
  (648, (s2l "foo[a]"), Some (s [(SSym (s2l "call")); (s [(SSym (s2l "call")); SNil; (SSym (s2l "foo"))]); (SSym (s2l "[]")); (s [(SSym (s2l "call")); SNil; (SSym (s2l "a"))])]));
  (649, (s2l "foo[]"), Some (s [(SSym (s2l "call")); (s [(SSym (s2l "call")); SNil; (SSym (s2l "foo"))]); (SSym (s2l "[]"))]));
  (650, (s2l "foo []"), Some (s [(SSym (s2l "call")); SNil; (SSym (s2l "foo")); (s [(SSym (s2l "array"))])]));
  (651, (s2l "foo [a, b]"), Some (s [(SSym (s2l "call")); SNil; (SSym (s2l "foo")); (s [(SSym (s2l "array")); (s [(SSym (s2l "call")); SNil; (SSym (s2l "a"))]); (s [(SSym (s2l "call")); SNil; (SSym (s2l "b"))])])]));
  (655, [100; 101; 102; 32; 102; 111; 111; 10; 101; 110; 100]%N, Some (s [(SSym (s2l "defn")); (SSym (s2l "foo")); (s [(SSym (s2l "args"))]); (s [(SSym (s2l "nil"))])]));
  (656, [100; 101; 102; 32; 70; 111; 111; 10; 101; 110; 100]%N, Some (s [(SSym (s2l "defn")); (SSym (s2l "Foo")); (s [(SSym (s2l "args"))]); (s [(SSym (s2l "nil"))])]));
  (657, (s2l "def foo;end"), Some (s [(SSym (s2l "defn")); (SSym (s2l "foo")); (s [(SSym (s2l "args"))]); (s [(SSym (s2l "nil"))])]));
  (658, [100; 101; 102; 32; 102; 111; 111; 10; 49; 10; 101; 110; 100]%N, Some (s [(SSym (s2l "defn")); (SSym (s2l "foo")); (s [(SSym (s2l "args"))]); (s [(SSym (s2l "lit")); (SInt (1))])]));
  (659, (s2l "def foo;1;end"), Some (s [(SSym (s2l "defn")); (SSym (s2l "foo")); (s [(SSym (s2l "args"))]); (s [(SSym (s2l "lit")); (SInt (1))])]));
  (660, (s2l "def foo();1;end"), Some (s [(SSym (s2l "defn")); (SSym (s2l "foo")); (s [(SSym (s2l "args"))]); (s [(SSym (s2l "lit")); (SInt (1))])]));
  (661, (s2l "def foo() 1 end"), Some (s [(SSym (s2l "defn")); (SSym (s2l "foo")); (s [(SSym (s2l "args"))]); (s [(SSym (s2l "lit")); (SInt (1))])]));
  (662, (s2l "def foo;1;2 + 2;'foo';end"), Some (s [(SSym (s2l "defn")); (SSym (s2l "foo")); (s [(SSym (s2l "args"))]); (s [(SSym (s2l "lit")); (SInt (1))]); (s [(SSym (s2l "call")); (s [(SSym (s2l "lit")); (SInt (2))]); (SSym (s2l "+")); (s [(SSym (s2l "lit")); (SInt (2))])]); (s [(SSym (s2l "str")); (SStr (s2l "foo"))])]));
  (663, [100; 101; 102; 32; 102; 111; 111; 32; 120; 44; 32; 121; 10; 101; 110; 100]%N, Some (s [(SSym (s2l "defn")); (SSym (s2l "foo")); (s [(SSym (s2l "args")); (SSym (s2l "x")); (SSym (s2l "y"))]); (s [(SSym (s2l "nil"))])]));
  (664, [100; 101; 102; 32; 102; 111; 111; 32; 120; 44; 10; 121; 10; 101; 110; 100]%N, Some (s [(SSym (s2l "defn")); (SSym (s2l "foo")); (s [(SSym (s2l "args")); (SSym (s2l "x")); (SSym (s2l "y"))]); (s [(SSym (s2l "nil"))])]));
  (665, [100; 101; 102; 32; 102; 111; 111; 40; 120; 44; 32; 121; 41; 10; 101; 110; 100]%N, Some (s [(SSym (s2l "defn")); (SSym (s2l "foo")); (s [(SSym (s2l "args")); (SSym (s2l "x")); (SSym (s2l "y"))]); (s [(SSym (s2l "nil"))])]));
  (666, (s2l "def foo(x, y);end"), Some (s [(SSym (s2l "defn")); (SSym (s2l "foo")); (s [(SSym (s2l "args")); (SSym (s2l "x")); (SSym (s2l "y"))]); (s [(SSym (s2l "nil"))])]));
  (667, [100; 101; 102; 32; 102; 111; 111; 40; 10; 120; 44; 10; 32; 121; 10; 41; 10; 101; 110; 100]%N, Some (s [(SSym (s2l "defn")); (SSym (s2l "foo")); (s [(SSym (s2l "args")); (SSym (s2l "x")); (SSym (s2l "y"))]); (s [(SSym (s2l "nil"))])]));
  (668, [100; 101; 102; 32; 102; 111; 111; 40; 120; 44; 32; 121; 41; 10; 49; 10; 50; 10; 101; 110; 100]%N, Some (s [(SSym (s2l "defn")); (SSym (s2l "foo")); (s [(SSym (s2l "args")); (SSym (s2l "x")); (SSym (s2l "y"))]); (s [(SSym (s2l "lit")); (SInt (1))]); (s [(SSym (s2l "lit")); (SInt (2))])]));
  (669, [100; 101; 102; 32; 102; 111; 111; 32; 110; 10; 110; 10; 101; 110; 100]%N, Some (s [(SSym (s2l "defn")); (SSym (s2l "foo")); (s [(SSym (s2l "args")); (SSym (s2l "n"))]); (s [(SSym (s2l "lvar")); (SSym (s2l "n"))])]));
  (670, [100; 101; 102; 32; 102; 111; 111; 40; 40; 97; 44; 32; 98; 41; 44; 32; 99; 44; 32; 40; 100; 44; 32; 101; 41; 41; 10; 101; 110; 100]%N, Some (s [(SSym (s2l "defn")); (SSym (s2l "foo")); (s [(SSym (s2l "args")); (s [(SSym (s2l "masgn")); (SSym (s2l "a")); (SSym (s2l "b"))]); (SSym (s2l "c")); (s [(SSym (s2l "masgn")); (SSym (s2l "d")); (SSym (s2l "e"))])]); (s [(SSym (s2l "nil"))])]));
  (671, (s2l "def foo!; end"), Some (s [(SSym (s2l "defn")); (SSym (s2l "foo!")); (s [(SSym (s2l "args"))]); (s [(SSym (s2l "nil"))])]));
  (672, (s2l "def foo?; end"), Some (s [(SSym (s2l "defn")); (SSym (s2l "foo?")); (s [(SSym (s2l "args"))]); (s [(SSym (s2l "nil"))])]));
  (673, (s2l "def foo=; end"), Some (s [(SSym (s2l "defn")); (SSym (s2l "foo=")); (s [(SSym (s2l "args"))]); (s [(SSym (s2l "nil"))])]));
  (674, (s2l "def self.foo; end"), Some (s [(SSym (s2l "defs")); (s [(SSym (s2l "self"))]); (SSym (s2l "foo")); (s [(SSym (s2l "args"))]); (s [(SSym (s2l "nil"))])]));
  (675, (s2l "def self.Foo; end"), Some (s [(SSym (s2l "defs")); (s [(SSym (s2l "self"))]); (SSym (s2l "Foo")); (s [(SSym (s2l "args"))]); (s [(SSym (s2l "nil"))])]));
  (676, (s2l "def Foo.bar; end"), Some (s [(SSym (s2l "defs")); (s [(SSym (s2l "const")); (SSym (s2l "Foo"))]); (SSym (s2l "bar")); (s [(SSym (s2l "args"))]); (s [(SSym (s2l "nil"))])]));
  (677, (s2l "def Foo.Bar; end"), Some (s [(SSym (s2l "defs")); (s [(SSym (s2l "const")); (SSym (s2l "Foo"))]); (SSym (s2l "Bar")); (s [(SSym (s2l "args"))]); (s [(SSym (s2l "nil"))])]));
  (678, (s2l "def self.foo=; end"), Some (s [(SSym (s2l "defs")); (s [(SSym (s2l "self"))]); (SSym (s2l "foo=")); (s [(SSym (s2l "args"))]); (s [(SSym (s2l "nil"))])]));
  (679, (s2l "def foo.bar=; end"), Some (s [(SSym (s2l "defs")); (s [(SSym (s2l "call")); SNil; (SSym (s2l "foo"))]); (SSym (s2l "bar=")); (s [(SSym (s2l "args"))]); (s [(SSym (s2l "nil"))])]));
  (680, (s2l "def Foo.foo; end"), Some (s [(SSym (s2l "defs")); (s [(SSym (s2l "const")); (SSym (s2l "Foo"))]); (SSym (s2l "foo")); (s [(SSym (s2l "args"))]); (s [(SSym (s2l "nil"))])]));
  (681, (s2l "def foo::bar; end"), Some (s [(SSym (s2l "defs")); (s [(SSym (s2l "call")); SNil; (SSym (s2l "foo"))]); (SSym (s2l "bar")); (s [(SSym (s2l "args"))]); (s [(SSym (s2l "nil"))])]));
  (682, (s2l "def Foo::bar; end"), Some (s [(SSym (s2l "defs")); (s [(SSym (s2l "const")); (SSym (s2l "Foo"))]); (SSym (s2l "bar")); (s [(SSym (s2l "args"))]); (s [(SSym (s2l "nil"))])]));
  (683, (s2l "def self::bar; end"), Some (s [(SSym (s2l "defs")); (s [(SSym (s2l "self"))]); (SSym (s2l "bar")); (s [(SSym (s2l "args"))]); (s [(SSym (s2l "nil"))])]));
  (684, (s2l "foo=o; def foo.bar; end"), Some (s [(SSym (s2l "block")); (s [(SSym (s2l "lasgn")); (SSym (s2l "foo")); (s [(SSym (s2l "call")); SNil; (SSym (s2l "o"))])]); (s [(SSym (s2l "defs")); (s [(SSym (s2l "lvar")); (SSym (s2l "foo"))]); (SSym (s2l "bar")); (s [(SSym (s2l "args"))]); (s [(SSym (s2l "nil"))])])]));
  (685, (s2l "def foo(*); end"), Some (s [(SSym (s2l "defn")); (SSym (s2l "foo")); (s [(SSym (s2l "args")); (SSym (s2l "*"))]); (s [(SSym (s2l "nil"))])]));
  (686, (s2l "def foo(*x); end"), Some (s [(SSym (s2l "defn")); (SSym (s2l "foo")); (s [(SSym (s2l "args")); (SSym (s2l "*x"))]); (s [(SSym (s2l "nil"))])]));
  (687, (s2l "def foo(x, *y, z); end"), Some (s [(SSym (s2l "defn")); (SSym (s2l "foo")); (s [(SSym (s2l "args")); (SSym (s2l "x")); (SSym (s2l "*y")); (SSym (s2l "z"))]); (s [(SSym (s2l "nil"))])]));
  (688, (s2l "def foo(a, &b); end"), Some (s [(SSym (s2l "defn")); (SSym (s2l "foo")); (s [(SSym (s2l "args")); (SSym (s2l "a")); (SSym (s2l "&b"))]); (s [(SSym (s2l "nil"))])]));
  (689, (s2l "def foo &a; end"), Some (s [(SSym (s2l "defn")); (SSym (s2l "foo")); (s [(SSym (s2l "args")); (SSym (s2l "&a"))]); (s [(SSym (s2l "nil"))])]));
  (690, (s2l "def foo(a = nil, b = foo, c = FOO); end"), Some (s [(SSym (s2l "defn")); (SSym (s2l "foo")); (s [(SSym (s2l "args")); (s [(SSym (s2l "lasgn")); (SSym (s2l "a")); (s [(SSym (s2l "nil"))])]); (s [(SSym (s2l "lasgn")); (SSym (s2l "b")); (s [(SSym (s2l "call")); SNil; (SSym (s2l "foo"))])]); (s [(SSym (s2l "lasgn")); (SSym (s2l "c")); (s [(SSym (s2l "const")); (SSym (s2l "FOO"))])])]); (s [(SSym (s2l "nil"))])]));
  (691, (s2l "bar def foo() end"), Some (s [(SSym (s2l "call")); SNil; (SSym (s2l "bar")); (s [(SSym (s2l "defn")); (SSym (s2l "foo")); (s [(SSym (s2l "args"))]); (s [(SSym (s2l "nil"))])])]));
  (692, (s2l "def (@foo = bar).===(obj); end"), Some (s [(SSym (s2l "defs")); (s [(SSym (s2l "iasgn")); (SSym (s2l "@foo")); (s [(SSym (s2l "call")); SNil; (SSym (s2l "bar"))])]); (SSym (s2l "===")); (s [(SSym (s2l "args")); (SSym (s2l "obj"))]); (s [(SSym (s2l "nil"))])]));
  (693, (s2l "def foo(a=b=c={}); c; end"), Some (s [(SSym (s2l "defn")); (SSym (s2l "foo")); (s [(SSym (s2l "args")); (s [(SSym (s2l "lasgn")); (SSym (s2l "a")); (s [(SSym (s2l "lasgn")); (SSym (s2l "b")); (s [(SSym (s2l "lasgn")); (SSym (s2l "c")); (s [(SSym (s2l "hash"))])])])])]); (s [(SSym (s2l "lvar")); (SSym (s2l "c"))])]));
  (696, (s2l "def foo(a, *b, c = nil) end"), None);
  (697, (s2l "def foo(a, **b, c = nil) end"), None);
  (698, (s2l "def foo(a, **b, *c) end"), None);
  (699, (s2l "def foo(b:, a) end"), None);
  (702, (s2l "def -@; end"), Some (s [(SSym (s2l "defn")); (SSym (s2l "-@")); (s [(SSym (s2l "args"))]); (s [(SSym (s2l "nil"))])]));
  (703, (s2l "def +@; end"), Some (s [(SSym (s2l "defn")); (SSym (s2l "+@")); (s [(SSym (s2l "args"))]); (s [(SSym (s2l "nil"))])]));
  (704, (s2l "def +@.foo; end"), None);
  (706, (s2l "def ~@; end"), Some (s [(SSym (s2l "defn")); (SSym (s2l "~@")); (s [(SSym (s2l "args"))]); (s [(SSym (s2l "nil"))])]));
  (711, (s2l "def !@; end"), Some (s [(SSym (s2l "defn")); (SSym (s2l "!@")); (s [(SSym (s2l "args"))]); (s [(SSym (s2l "nil"))])]));
  (714, (s2l "def exec(cmd) = system(cmd)"), Some (s [(SSym (s2l "defn")); (SSym (s2l "exec")); (s [(SSym (s2l "args")); (SSym (s2l "cmd"))]); (s [(SSym (s2l "call")); SNil; (SSym (s2l "system")); (s [(SSym (s2l "lvar")); (SSym (s2l "cmd"))])])]));
  (715, (s2l "def foo = bar"), Some (s [(SSym (s2l "defn")); (SSym (s2l "foo")); (s [(SSym (s2l "args"))]); (s [(SSym (s2l "call")); SNil; (SSym (s2l "bar"))])]));
  (716, (s2l "def self.exec(cmd) = system(cmd) rescue nil"), Some (s [(SSym (s2l "defs")); (s [(SSym (s2l "self"))]); (SSym (s2l "exec")); (s [(SSym (s2l "args")); (SSym (s2l "cmd"))]); (s [(SSym (s2l "rescue")); (s [(SSym (s2l "call")); SNil; (SSym (s2l "system")); (s [(SSym (s2l "lvar")); (SSym (s2l "cmd"))])]); (s [(SSym (s2l "resbody")); (s [(SSym (s2l "array"))]); (s [(SSym (s2l "nil"))])])])]));
  (717, (s2l "def ==(o) = 42"), Some (s [(SSym (s2l "defn")); (SSym (s2l "==")); (s [(SSym (s2l "args")); (SSym (s2l "o"))]); (s [(SSym (s2l "lit")); (SInt (42))])]));
  (718, (s2l "def ====; end"), None);
  (719, (s2l "def self.==(o) = 42"), Some (s [(SSym (s2l "defs")); (s [(SSym (s2l "self"))]); (SSym (s2l "==")); (s [(SSym (s2l "args")); (SSym (s2l "o"))]); (s [(SSym (s2l "lit")); (SInt (42))])]));
  (720, (s2l "def foo a, b = bar"), None);
  (721, (s2l "def self.x=(o) = 42"), None);
  (722, (s2l "def self.[]=(k, v) = 42"), None);
  (726, (s2l "def foo(a, b: :c, d:); end"), Some (s [(SSym (s2l "defn")); (SSym (s2l "foo")); (s [(SSym (s2l "args")); (SSym (s2l "a")); (s [(SSym (s2l "kwarg")); (SSym (s2l "b")); (s [(SSym (s2l "lit")); (SSym (s2l "c"))])]); (s [(SSym (s2l "kwarg")); (SSym (s2l "d"))])]); (s [(SSym (s2l "nil"))])]));
  (727, (s2l "def foo bar: 1; end"), Some (s [(SSym (s2l "defn")); (SSym (s2l "foo")); (s [(SSym (s2l "args")); (s [(SSym (s2l "kwarg")); (SSym (s2l "bar")); (s [(SSym (s2l "lit")); (SInt (1))])])]); (s [(SSym (s2l "nil"))])]));
  (728, (s2l "def foo bar:; end"), Some (s [(SSym (s2l "defn")); (SSym (s2l "foo")); (s [(SSym (s2l "args")); (s [(SSym (s2l "kwarg")); (SSym (s2l "bar"))])]); (s [(SSym (s2l "nil"))])]));
  (729, (s2l "def self.foo bar: 1; end"), Some (s [(SSym (s2l "defs")); (s [(SSym (s2l "self"))]); (SSym (s2l "foo")); (s [(SSym (s2l "args")); (s [(SSym (s2l "kwarg")); (SSym (s2l "bar")); (s [(SSym (s2l "lit")); (SInt (1))])])]); (s [(SSym (s2l "nil"))])]));
  (730, (s2l "def foo Bar: 1; end"), Some (s [(SSym (s2l "defn")); (SSym (s2l "foo")); (s [(SSym (s2l "args")); (s [(SSym (s2l "kwarg")); (SSym (s2l "Bar")); (s [(SSym (s2l "lit")); (SInt (1))])])]); (s [(SSym (s2l "nil"))])]));
  (734, (s2l "undef"), None);
  (735, (s2l "undef foo"), Some (s [(SSym (s2l "undef")); (s [(SSym (s2l "lit")); (SSym (s2l "foo"))])]));
  (736, (s2l "undef :foo"), Some (s [(SSym (s2l "undef")); (s [(SSym (s2l "lit")); (SSym (s2l "foo"))])]));
  (737, (s2l "undef :""foo"""), Some (s [(SSym (s2l "undef")); (s [(SSym (s2l "lit")); (SSym (s2l "foo"))])]));
  (738, (s2l "undef Foo"), Some (s [(SSym (s2l "undef")); (s [(SSym (s2l "lit")); (SSym (s2l "Foo"))])]));
  (739, (s2l "undef foo, :bar"), Some (s [(SSym (s2l "block")); (s [(SSym (s2l "undef")); (s [(SSym (s2l "lit")); (SSym (s2l "foo"))])]); (s [(SSym (s2l "undef")); (s [(SSym (s2l "lit")); (SSym (s2l "bar"))])])]));
  (741, [117; 110; 100; 101; 102; 32; 60; 60; 10; 100; 101; 102; 32; 102; 111; 111; 59; 32; 101; 110; 100]%N, Some (s [(SSym (s2l "block")); (s [(SSym (s2l "undef")); (s [(SSym (s2l "lit")); (SSym (s2l "<<"))])]); (s [(SSym (s2l "defn")); (SSym (s2l "foo")); (s [(SSym (s2l "args"))]); (s [(SSym (s2l "nil"))])])]));
  (743, [117; 110; 100; 101; 102; 32; 102; 111; 111; 61; 44; 32; 97; 110; 100; 61; 10; 100; 101; 102; 32; 102; 111; 111; 59; 32; 101; 110; 100]%N, Some (s [(SSym (s2l "block")); (s [(SSym (s2l "block")); (s [(SSym (s2l "undef")); (s [(SSym (s2l "lit")); (SSym (s2l "foo="))])]); (s [(SSym (s2l "undef")); (s [(SSym (s2l "lit")); (SSym (s2l "and="))])])]); (s [(SSym (s2l "defn")); (SSym (s2l "foo")); (s [(SSym (s2l "args"))]); (s [(SSym (s2l "nil"))])])]));
  (752, (s2l "def +; end"), Some (s [(SSym (s2l "defn")); (SSym (s2l "+")); (s [(SSym (s2l "args"))]); (s [(SSym (s2l "nil"))])]));
  (752, (s2l "def -; end"), Some (s [(SSym (s2l "defn")); (SSym (s2l "-")); (s [(SSym (s2l "args"))]); (s [(SSym (s2l "nil"))])]));
  (752, (s2l "def *; end"), Some (s [(SSym (s2l "defn")); (SSym (s2l "*")); (s [(SSym (s2l "args"))]); (s [(SSym (s2l "nil"))])]));
  (752, (s2l "def **; end"), Some (s [(SSym (s2l "defn")); (SSym (s2l "**")); (s [(SSym (s2l "args"))]); (s [(SSym (s2l "nil"))])]));
  (752, (s2l "def /; end"), Some (s [(SSym (s2l "defn")); (SSym (s2l "/")); (s [(SSym (s2l "args"))]); (s [(SSym (s2l "nil"))])]));
  (752, (s2l "def %; end"), Some (s [(SSym (s2l "defn")); (SSym (s2l "%")); (s [(SSym (s2l "args"))]); (s [(SSym (s2l "nil"))])]));
  (752, (s2l "def ==; end"), Some (s [(SSym (s2l "defn")); (SSym (s2l "==")); (s [(SSym (s2l "args"))]); (s [(SSym (s2l "nil"))])]));
  (752, (s2l "def ===; end"), Some (s [(SSym (s2l "defn")); (SSym (s2l "===")); (s [(SSym (s2l "args"))]); (s [(SSym (s2l "nil"))])]));
  (752, (s2l "def !=; end"), Some (s [(SSym (s2l "defn")); (SSym (s2l "!=")); (s [(SSym (s2l "args"))]); (s [(SSym (s2l "nil"))])]));
  (752, (s2l "def =~; end"), Some (s [(SSym (s2l "defn")); (SSym (s2l "=~")); (s [(SSym (s2l "args"))]); (s [(SSym (s2l "nil"))])]));
  (752, (s2l "def !~; end"), Some (s [(SSym (s2l "defn")); (SSym (s2l "!~")); (s [(SSym (s2l "args"))]); (s [(SSym (s2l "nil"))])]));
  (752, (s2l "def >; end"), Some (s [(SSym (s2l "defn")); (SSym (s2l ">")); (s [(SSym (s2l "args"))]); (s [(SSym (s2l "nil"))])]));
  (752, (s2l "def >=; end"), Some (s [(SSym (s2l "defn")); (SSym (s2l ">=")); (s [(SSym (s2l "args"))]); (s [(SSym (s2l "nil"))])]));
  (752, (s2l "def <; end"), Some (s [(SSym (s2l "defn")); (SSym (s2l "<")); (s [(SSym (s2l "args"))]); (s [(SSym (s2l "nil"))])]));
  (752, (s2l "def <=; end"), Some (s [(SSym (s2l "defn")); (SSym (s2l "<=")); (s [(SSym (s2l "args"))]); (s [(SSym (s2l "nil"))])]));
  (752, (s2l "def <=>; end"), Some (s [(SSym (s2l "defn")); (SSym (s2l "<=>")); (s [(SSym (s2l "args"))]); (s [(SSym (s2l "nil"))])]));
  (752, (s2l "def &; end"), Some (s [(SSym (s2l "defn")); (SSym (s2l "&")); (s [(SSym (s2l "args"))]); (s [(SSym (s2l "nil"))])]));
  (752, (s2l "def |; end"), Some (s [(SSym (s2l "defn")); (SSym (s2l "|")); (s [(SSym (s2l "args"))]); (s [(SSym (s2l "nil"))])]));
  (752, (s2l "def ^; end"), Some (s [(SSym (s2l "defn")); (SSym (s2l "^")); (s [(SSym (s2l "args"))]); (s [(SSym (s2l "nil"))])]));
  (752, (s2l "def ~; end"), Some (s [(SSym (s2l "defn")); (SSym (s2l "~")); (s [(SSym (s2l "args"))]); (s [(SSym (s2l "nil"))])]));
  (752, (s2l "def <<; end"), Some (s [(SSym (s2l "defn")); (SSym (s2l "<<")); (s [(SSym (s2l "args"))]); (s [(SSym (s2l "nil"))])]));
  (752, (s2l "def >>; end"), Some (s [(SSym (s2l "defn")); (SSym (s2l ">>")); (s [(SSym (s2l "args"))]); (s [(SSym (s2l "nil"))])]));
  (752, (s2l "def []; end"), Some (s [(SSym (s2l "defn")); (SSym (s2l "[]")); (s [(SSym (s2l "args"))]); (s [(SSym (s2l "nil"))])]));
  (752, (s2l "def []=; end"), Some (s [(SSym (s2l "defn")); (SSym (s2l "[]=")); (s [(SSym (s2l "args"))]); (s [(SSym (s2l "nil"))])]));
  (752, (s2l "def !; end"), Some (s [(SSym (s2l "defn")); (SSym (s2l "!")); (s [(SSym (s2l "args"))]); (s [(SSym (s2l "nil"))])]));
  (753, [100; 101; 102; 32; 43; 40; 120; 41; 10; 101; 110; 100]%N, Some (s [(SSym (s2l "defn")); (SSym (s2l "+")); (s [(SSym (s2l "args")); (SSym (s2l "x"))]); (s [(SSym (s2l "nil"))])]));
  (753, [100; 101; 102; 32; 45; 40; 120; 41; 10; 101; 110; 100]%N, Some (s [(SSym (s2l "defn")); (SSym (s2l "-")); (s [(SSym (s2l "args")); (SSym (s2l "x"))]); (s [(SSym (s2l "nil"))])]));
  (753, [100; 101; 102; 32; 42; 40; 120; 41; 10; 101; 110; 100]%N, Some (s [(SSym (s2l "defn")); (SSym (s2l "*")); (s [(SSym (s2l "args")); (SSym (s2l "x"))]); (s [(SSym (s2l "nil"))])]));
  (753, [100; 101; 102; 32; 42; 42; 40; 120; 41; 10; 101; 110; 100]%N, Some (s [(SSym (s2l "defn")); (SSym (s2l "**")); (s [(SSym (s2l "args")); (SSym (s2l "x"))]); (s [(SSym (s2l "nil"))])]));
  (753, [100; 101; 102; 32; 47; 40; 120; 41; 10; 101; 110; 100]%N, Some (s [(SSym (s2l "defn")); (SSym (s2l "/")); (s [(SSym (s2l "args")); (SSym (s2l "x"))]); (s [(SSym (s2l "nil"))])]));
  (753, [100; 101; 102; 32; 37; 40; 120; 41; 10; 101; 110; 100]%N, Some (s [(SSym (s2l "defn")); (SSym (s2l "%")); (s [(SSym (s2l "args")); (SSym (s2l "x"))]); (s [(SSym (s2l "nil"))])]));
  (753, [100; 101; 102; 32; 61; 61; 40; 120; 41; 10; 101; 110; 100]%N, Some (s [(SSym (s2l "defn")); (SSym (s2l "==")); (s [(SSym (s2l "args")); (SSym (s2l "x"))]); (s [(SSym (s2l "nil"))])]));
  (753, [100; 101; 102; 32; 61; 61; 61; 40; 120; 41; 10; 101; 110; 100]%N, Some (s [(SSym (s2l "defn")); (SSym (s2l "===")); (s [(SSym (s2l "args")); (SSym (s2l "x"))]); (s [(SSym (s2l "nil"))])]));
  (753, [100; 101; 102; 32; 33; 61; 40; 120; 41; 10; 101; 110; 100]%N, Some (s [(SSym (s2l "defn")); (SSym (s2l "!=")); (s [(SSym (s2l "args")); (SSym (s2l "x"))]); (s [(SSym (s2l "nil"))])]));
  (753, [100; 101; 102; 32; 61; 126; 40; 120; 41; 10; 101; 110; 100]%N, Some (s [(SSym (s2l "defn")); (SSym (s2l "=~")); (s [(SSym (s2l "args")); (SSym (s2l "x"))]); (s [(SSym (s2l "nil"))])]));
  (753, [100; 101; 102; 32; 33; 126; 40; 120; 41; 10; 101; 110; 100]%N, Some (s [(SSym (s2l "defn")); (SSym (s2l "!~")); (s [(SSym (s2l "args")); (SSym (s2l "x"))]); (s [(SSym (s2l "nil"))])]));
  (753, [100; 101; 102; 32; 62; 40; 120; 41; 10; 101; 110; 100]%N, Some (s [(SSym (s2l "defn")); (SSym (s2l ">")); (s [(SSym (s2l "args")); (SSym (s2l "x"))]); (s [(SSym (s2l "nil"))])]));
  (753, [100; 101; 102; 32; 62; 61; 40; 120; 41; 10; 101; 110; 100]%N, Some (s [(SSym (s2l "defn")); (SSym (s2l ">=")); (s [(SSym (s2l "args")); (SSym (s2l "x"))]); (s [(SSym (s2l "nil"))])]));
  (753, [100; 101; 102; 32; 60; 40; 120; 41; 10; 101; 110; 100]%N, Some (s [(SSym (s2l "defn")); (SSym (s2l "<")); (s [(SSym (s2l "args")); (SSym (s2l "x"))]); (s [(SSym (s2l "nil"))])]));
  (753, [100; 101; 102; 32; 60; 61; 40; 120; 41; 10; 101; 110; 100]%N, Some (s [(SSym (s2l "defn")); (SSym (s2l "<=")); (s [(SSym (s2l "args")); (SSym (s2l "x"))]); (s [(SSym (s2l "nil"))])]));
  (753, [100; 101; 102; 32; 60; 61; 62; 40; 120; 41; 10; 101; 110; 100]%N, Some (s [(SSym (s2l "defn")); (SSym (s2l "<=>")); (s [(SSym (s2l "args")); (SSym (s2l "x"))]); (s [(SSym (s2l "nil"))])]));
  (753, [100; 101; 102; 32; 38; 40; 120; 41; 10; 101; 110; 100]%N, Some (s [(SSym (s2l "defn")); (SSym (s2l "&")); (s [(SSym (s2l "args")); (SSym (s2l "x"))]); (s [(SSym (s2l "nil"))])]));
  (753, [100; 101; 102; 32; 124; 40; 120; 41; 10; 101; 110; 100]%N, Some (s [(SSym (s2l "defn")); (SSym (s2l "|")); (s [(SSym (s2l "args")); (SSym (s2l "x"))]); (s [(SSym (s2l "nil"))])]));
  (753, [100; 101; 102; 32; 94; 40; 120; 41; 10; 101; 110; 100]%N, Some (s [(SSym (s2l "defn")); (SSym (s2l "^")); (s [(SSym (s2l "args")); (SSym (s2l "x"))]); (s [(SSym (s2l "nil"))])]));
  (753, [100; 101; 102; 32; 126; 40; 120; 41; 10; 101; 110; 100]%N, Some (s [(SSym (s2l "defn")); (SSym (s2l "~")); (s [(SSym (s2l "args")); (SSym (s2l "x"))]); (s [(SSym (s2l "nil"))])]));
  (753, [100; 101; 102; 32; 60; 60; 40; 120; 41; 10; 101; 110; 100]%N, Some (s [(SSym (s2l "defn")); (SSym (s2l "<<")); (s [(SSym (s2l "args")); (SSym (s2l "x"))]); (s [(SSym (s2l "nil"))])]));
  (753, [100; 101; 102; 32; 62; 62; 40; 120; 41; 10; 101; 110; 100]%N, Some (s [(SSym (s2l "defn")); (SSym (s2l ">>")); (s [(SSym (s2l "args")); (SSym (s2l "x"))]); (s [(SSym (s2l "nil"))])]));
  (753, [100; 101; 102; 32; 91; 93; 40; 120; 41; 10; 101; 110; 100]%N, Some (s [(SSym (s2l "defn")); (SSym (s2l "[]")); (s [(SSym (s2l "args")); (SSym (s2l "x"))]); (s [(SSym (s2l "nil"))])]));
  (753, [100; 101; 102; 32; 91; 93; 61; 40; 120; 41; 10; 101; 110; 100]%N, Some (s [(SSym (s2l "defn")); (SSym (s2l "[]=")); (s [(SSym (s2l "args")); (SSym (s2l "x"))]); (s [(SSym (s2l "nil"))])]));
  (753, [100; 101; 102; 32; 33; 40; 120; 41; 10; 101; 110; 100]%N, Some (s [(SSym (s2l "defn")); (SSym (s2l "!")); (s [(SSym (s2l "args")); (SSym (s2l "x"))]); (s [(SSym (s2l "nil"))])]));
  (754, (s2l "def self.+; end"), Some (s [(SSym (s2l "defs")); (s [(SSym (s2l "self"))]); (SSym (s2l "+")); (s [(SSym (s2l "args"))]); (s [(SSym (s2l "nil"))])]));
  (754, (s2l "def self.-; end"), Some (s [(SSym (s2l "defs")); (s [(SSym (s2l "self"))]); (SSym (s2l "-")); (s [(SSym (s2l "args"))]); (s [(SSym (s2l "nil"))])]));
  (754, (s2l "def self.*; end"), Some (s [(SSym (s2l "defs")); (s [(SSym (s2l "self"))]); (SSym (s2l "*")); (s [(SSym (s2l "args"))]); (s [(SSym (s2l "nil"))])]));
  (754, (s2l "def self.**; end"), Some (s [(SSym (s2l "defs")); (s [(SSym (s2l "self"))]); (SSym (s2l "**")); (s [(SSym (s2l "args"))]); (s [(SSym (s2l "nil"))])]));
  (754, (s2l "def self./; end"), Some (s [(SSym (s2l "defs")); (s [(SSym (s2l "self"))]); (SSym (s2l "/")); (s [(SSym (s2l "args"))]); (s [(SSym (s2l "nil"))])]));
  (754, (s2l "def self.%; end"), Some (s [(SSym (s2l "defs")); (s [(SSym (s2l "self"))]); (SSym (s2l "%")); (s [(SSym (s2l "args"))]); (s [(SSym (s2l "nil"))])]));
  (754, (s2l "def self.==; end"), Some (s [(SSym (s2l "defs")); (s [(SSym (s2l "self"))]); (SSym (s2l "==")); (s [(SSym (s2l "args"))]); (s [(SSym (s2l "nil"))])]));
  (754, (s2l "def self.===; end"), Some (s [(SSym (s2l "defs")); (s [(SSym (s2l "self"))]); (SSym (s2l "===")); (s [(SSym (s2l "args"))]); (s [(SSym (s2l "nil"))])]));
  (754, (s2l "def self.!=; end"), Some (s [(SSym (s2l "defs")); (s [(SSym (s2l "self"))]); (SSym (s2l "!=")); (s [(SSym (s2l "args"))]); (s [(SSym (s2l "nil"))])]));
  (754, (s2l "def self.=~; end"), Some (s [(SSym (s2l "defs")); (s [(SSym (s2l "self"))]); (SSym (s2l "=~")); (s [(SSym (s2l "args"))]); (s [(SSym (s2l "nil"))])]))].
Example parser_test_2_passes : forallb passes parser_test_2 = true.
Proof. vm_compute. reflexivity. Qed.

(** /repo/test/parser_test.rb, lines 754-870. *)
Definition parser_test_3 : list (N * str * option sexp) := [
  (754, (s2l "def self.!~; end"), Some (s [(SSym (s2l "defs")); (s [(SSym (s2l "self"))]); (SSym (s2l "!~")); (s [(SSym (s2l "args"))]); (s [(SSym (s2l "nil"))])]));
  (754, (s2l "def self.>; end"), Some (s [(SSym (s2l "defs")); (s [(SSym (s2l "self"))]); (SSym (s2l ">")); (s [(SSym (s2l "args"))]); (s [(SSym (s2l "nil"))])]));
  (754, (s2l "def self.>=; end"), Some (s [(SSym (s2l "defs")); (s [(SSym (s2l "self"))]); (SSym (s2l ">=")); (s [(SSym (s2l "args"))]); (s [(SSym (s2l "nil"))])]));
  (754, (s2l "def self.<; end"), Some (s [(SSym (s2l "defs")); (s [(SSym (s2l "self"))]); (SSym (s2l "<")); (s [(SSym (s2l "args"))]); (s [(SSym (s2l "nil"))])]));
  (754, (s2l "def self.<=; end"), Some (s [(SSym (s2l "defs")); (s [(SSym (s2l "self"))]); (SSym (s2l "<=")); (s [(SSym (s2l "args"))]); (s [(SSym (s2l "nil"))])]));
  (754, (s2l "def self.<=>; end"), Some (s [(SSym (s2l "defs")); (s [(SSym (s2l "self"))]); (SSym (s2l "<=>")); (s [(SSym (s2l "args"))]); (s [(SSym (s2l "nil"))])]));
  (754, (s2l "def self.&; end"), Some (s [(SSym (s2l "defs")); (s [(SSym (s2l "self"))]); (SSym (s2l "&")); (s [(SSym (s2l "args"))]); (s [(SSym (s2l "nil"))])]));
  (754, (s2l "def self.|; end"), Some (s [(SSym (s2l "defs")); (s [(SSym (s2l "self"))]); (SSym (s2l "|")); (s [(SSym (s2l "args"))]); (s [(SSym (s2l "nil"))])]));
  (754, (s2l "def self.^; end"), Some (s [(SSym (s2l "defs")); (s [(SSym (s2l "self"))]); (SSym (s2l "^")); (s [(SSym (s2l "args"))]); (s [(SSym (s2l "nil"))])]));
  (754, (s2l "def self.~; end"), Some (s [(SSym (s2l "defs")); (s [(SSym (s2l "self"))]); (SSym (s2l "~")); (s [(SSym (s2l "args"))]); (s [(SSym (s2l "nil"))])]));
  (754, (s2l "def self.<<; end"), Some (s [(SSym (s2l "defs")); (s [(SSym (s2l "self"))]); (SSym (s2l "<<")); (s [(SSym (s2l "args"))]); (s [(SSym (s2l "nil"))])]));
  (754, (s2l "def self.>>; end"), Some (s [(SSym (s2l "defs")); (s [(SSym (s2l "self"))]); (SSym (s2l ">>")); (s [(SSym (s2l "args"))]); (s [(SSym (s2l "nil"))])]));
  (754, (s2l "def self.[]; end"), Some (s [(SSym (s2l "defs")); (s [(SSym (s2l "self"))]); (SSym (s2l "[]")); (s [(SSym (s2l "args"))]); (s [(SSym (s2l "nil"))])]));
  (754, (s2l "def self.[]=; end"), Some (s [(SSym (s2l "defs")); (s [(SSym (s2l "self"))]); (SSym (s2l "[]=")); (s [(SSym (s2l "args"))]); (s [(SSym (s2l "nil"))])]));
  (754, (s2l "def self.!; end"), Some (s [(SSym (s2l "defs")); (s [(SSym (s2l "self"))]); (SSym (s2l "!")); (s [(SSym (s2l "args"))]); (s [(SSym (s2l "nil"))])]));
  (802, (s2l "def alias(x); end"), Some (s [(SSym (s2l "defn")); (SSym (s2l "alias")); (s [(SSym (s2l "args")); (SSym (s2l "x"))]); (s [(SSym (s2l "nil"))])]));
  (802, (s2l "def and(x); end"), Some (s [(SSym (s2l "defn")); (SSym (s2l "and")); (s [(SSym (s2l "args")); (SSym (s2l "x"))]); (s [(SSym (s2l "nil"))])]));
  (802, (s2l "def begin(x); end"), Some (s [(SSym (s2l "defn")); (SSym (s2l "begin")); (s [(SSym (s2l "args")); (SSym (s2l "x"))]); (s [(SSym (s2l "nil"))])]));
  (802, (s2l "def begin(x); end"), Some (s [(SSym (s2l "defn")); (SSym (s2l "begin")); (s [(SSym (s2l "args")); (SSym (s2l "x"))]); (s [(SSym (s2l "nil"))])]));
  (802, (s2l "def break(x); end"), Some (s [(SSym (s2l "defn")); (SSym (s2l "break")); (s [(SSym (s2l "args")); (SSym (s2l "x"))]); (s [(SSym (s2l "nil"))])]));
  (802, (s2l "def case(x); end"), Some (s [(SSym (s2l "defn")); (SSym (s2l "case")); (s [(SSym (s2l "args")); (SSym (s2l "x"))]); (s [(SSym (s2l "nil"))])]));
  (802, (s2l "def class(x); end"), Some (s [(SSym (s2l "defn")); (SSym (s2l "class")); (s [(SSym (s2l "args")); (SSym (s2l "x"))]); (s [(SSym (s2l "nil"))])]));
  (802, (s2l "def defined(x); end"), Some (s [(SSym (s2l "defn")); (SSym (s2l "defined")); (s [(SSym (s2l "args")); (SSym (s2l "x"))]); (s [(SSym (s2l "nil"))])]));
  (802, (s2l "def def(x); end"), Some (s [(SSym (s2l "defn")); (SSym (s2l "def")); (s [(SSym (s2l "args")); (SSym (s2l "x"))]); (s [(SSym (s2l "nil"))])]));
  (802, (s2l "def do(x); end"), Some (s [(SSym (s2l "defn")); (SSym (s2l "do")); (s [(SSym (s2l "args")); (SSym (s2l "x"))]); (s [(SSym (s2l "nil"))])]));
  (802, (s2l "def else(x); end"), Some (s [(SSym (s2l "defn")); (SSym (s2l "else")); (s [(SSym (s2l "args")); (SSym (s2l "x"))]); (s [(SSym (s2l "nil"))])]));
  (802, (s2l "def elsif(x); end"), Some (s [(SSym (s2l "defn")); (SSym (s2l "elsif")); (s [(SSym (s2l "args")); (SSym (s2l "x"))]); (s [(SSym (s2l "nil"))])]));
  (802, (s2l "def encoding(x); end"), Some (s [(SSym (s2l "defn")); (SSym (s2l "encoding")); (s [(SSym (s2l "args")); (SSym (s2l "x"))]); (s [(SSym (s2l "nil"))])]));
  (802, (s2l "def end(x); end"), Some (s [(SSym (s2l "defn")); (SSym (s2l "end")); (s [(SSym (s2l "args")); (SSym (s2l "x"))]); (s [(SSym (s2l "nil"))])]));
  (802, (s2l "def end(x); end"), Some (s [(SSym (s2l "defn")); (SSym (s2l "end")); (s [(SSym (s2l "args")); (SSym (s2l "x"))]); (s [(SSym (s2l "nil"))])]));
  (802, (s2l "def ensure(x); end"), Some (s [(SSym (s2l "defn")); (SSym (s2l "ensure")); (s [(SSym (s2l "args")); (SSym (s2l "x"))]); (s [(SSym (s2l "nil"))])]));
  (802, (s2l "def false(x); end"), Some (s [(SSym (s2l "defn")); (SSym (s2l "false")); (s [(SSym (s2l "args")); (SSym (s2l "x"))]); (s [(SSym (s2l "nil"))])]));
  (802, (s2l "def file(x); end"), Some (s [(SSym (s2l "defn")); (SSym (s2l "file")); (s [(SSym (s2l "args")); (SSym (s2l "x"))]); (s [(SSym (s2l "nil"))])]));
  (802, (s2l "def for(x); end"), Some (s [(SSym (s2l "defn")); (SSym (s2l "for")); (s [(SSym (s2l "args")); (SSym (s2l "x"))]); (s [(SSym (s2l "nil"))])]));
  (802, (s2l "def if(x); end"), Some (s [(SSym (s2l "defn")); (SSym (s2l "if")); (s [(SSym (s2l "args")); (SSym (s2l "x"))]); (s [(SSym (s2l "nil"))])]));
  (802, (s2l "def in(x); end"), Some (s [(SSym (s2l "defn")); (SSym (s2l "in")); (s [(SSym (s2l "args")); (SSym (s2l "x"))]); (s [(SSym (s2l "nil"))])]));
  (802, (s2l "def line(x); end"), Some (s [(SSym (s2l "defn")); (SSym (s2l "line")); (s [(SSym (s2l "args")); (SSym (s2l "x"))]); (s [(SSym (s2l "nil"))])]));
  (802, (s2l "def module(x); end"), Some (s [(SSym (s2l "defn")); (SSym (s2l "module")); (s [(SSym (s2l "args")); (SSym (s2l "x"))]); (s [(SSym (s2l "nil"))])]));
  (802, (s2l "def next(x); end"), Some (s [(SSym (s2l "defn")); (SSym (s2l "next")); (s [(SSym (s2l "args")); (SSym (s2l "x"))]); (s [(SSym (s2l "nil"))])]));
  (802, (s2l "def nil(x); end"), Some (s [(SSym (s2l "defn")); (SSym (s2l "nil")); (s [(SSym (s2l "args")); (SSym (s2l "x"))]); (s [(SSym (s2l "nil"))])]));
  (802, (s2l "def not(x); end"), Some (s [(SSym (s2l "defn")); (SSym (s2l "not")); (s [(SSym (s2l "args")); (SSym (s2l "x"))]); (s [(SSym (s2l "nil"))])]));
  (802, (s2l "def or(x); end"), Some (s [(SSym (s2l "defn")); (SSym (s2l "or")); (s [(SSym (s2l "args")); (SSym (s2l "x"))]); (s [(SSym (s2l "nil"))])]));
  (802, (s2l "def redo(x); end"), Some (s [(SSym (s2l "defn")); (SSym (s2l "redo")); (s [(SSym (s2l "args")); (SSym (s2l "x"))]); (s [(SSym (s2l "nil"))])]));
  (802, (s2l "def rescue(x); end"), Some (s [(SSym (s2l "defn")); (SSym (s2l "rescue")); (s [(SSym (s2l "args")); (SSym (s2l "x"))]); (s [(SSym (s2l "nil"))])]));
  (802, (s2l "def retry(x); end"), Some (s [(SSym (s2l "defn")); (SSym (s2l "retry")); (s [(SSym (s2l "args")); (SSym (s2l "x"))]); (s [(SSym (s2l "nil"))])]));
  (802, (s2l "def return(x); end"), Some (s [(SSym (s2l "defn")); (SSym (s2l "return")); (s [(SSym (s2l "args")); (SSym (s2l "x"))]); (s [(SSym (s2l "nil"))])]));
  (802, (s2l "def self(x); end"), Some (s [(SSym (s2l "defn")); (SSym (s2l "self")); (s [(SSym (s2l "args")); (SSym (s2l "x"))]); (s [(SSym (s2l "nil"))])]));
  (802, (s2l "def super(x); end"), Some (s [(SSym (s2l "defn")); (SSym (s2l "super")); (s [(SSym (s2l "args")); (SSym (s2l "x"))]); (s [(SSym (s2l "nil"))])]));
  (802, (s2l "def then(x); end"), Some (s [(SSym (s2l "defn")); (SSym (s2l "then")); (s [(SSym (s2l "args")); (SSym (s2l "x"))]); (s [(SSym (s2l "nil"))])]));
  (802, (s2l "def true(x); end"), Some (s [(SSym (s2l "defn")); (SSym (s2l "true")); (s [(SSym (s2l "args")); (SSym (s2l "x"))]); (s [(SSym (s2l "nil"))])]));
  (802, (s2l "def undef(x); end"), Some (s [(SSym (s2l "defn")); (SSym (s2l "undef")); (s [(SSym (s2l "args")); (SSym (s2l "x"))]); (s [(SSym (s2l "nil"))])]));
  (802, (s2l "def unless(x); end"), Some (s [(SSym (s2l "defn")); (SSym (s2l "unless")); (s [(SSym (s2l "args")); (SSym (s2l "x"))]); (s [(SSym (s2l "nil"))])]));
  (802, (s2l "def until(x); end"), Some (s [(SSym (s2l "defn")); (SSym (s2l "until")); (s [(SSym (s2l "args")); (SSym (s2l "x"))]); (s [(SSym (s2l "nil"))])]));
  (802, (s2l "def when(x); end"), Some (s [(SSym (s2l "defn")); (SSym (s2l "when")); (s [(SSym (s2l "args")); (SSym (s2l "x"))]); (s [(SSym (s2l "nil"))])]));
  (802, (s2l "def while(x); end"), Some (s [(SSym (s2l "defn")); (SSym (s2l "while")); (s [(SSym (s2l "args")); (SSym (s2l "x"))]); (s [(SSym (s2l "nil"))])]));
  (802, (s2l "def yield(x); end"), Some (s [(SSym (s2l "defn")); (SSym (s2l "yield")); (s [(SSym (s2l "args")); (SSym (s2l "x"))]); (s [(SSym (s2l "nil"))])]));
  (803, (s2l "def self.alias x; end"), Some (s [(SSym (s2l "defs")); (s [(SSym (s2l "self"))]); (SSym (s2l "alias")); (s [(SSym (s2l "args")); (SSym (s2l "x"))]); (s [(SSym (s2l "nil"))])]));
  (803, (s2l "def self.and x; end"), Some (s [(SSym (s2l "defs")); (s [(SSym (s2l "self"))]); (SSym (s2l "and")); (s [(SSym (s2l "args")); (SSym (s2l "x"))]); (s [(SSym (s2l "nil"))])]));
  (803, (s2l "def self.begin x; end"), Some (s [(SSym (s2l "defs")); (s [(SSym (s2l "self"))]); (SSym (s2l "begin")); (s [(SSym (s2l "args")); (SSym (s2l "x"))]); (s [(SSym (s2l "nil"))])]));
  (803, (s2l "def self.begin x; end"), Some (s [(SSym (s2l "defs")); (s [(SSym (s2l "self"))]); (SSym (s2l "begin")); (s [(SSym (s2l "args")); (SSym (s2l "x"))]); (s [(SSym (s2l "nil"))])]));
  (803, (s2l "def self.break x; end"), Some (s [(SSym (s2l "defs")); (s [(SSym (s2l "self"))]); (SSym (s2l "break")); (s [(SSym (s2l "args")); (SSym (s2l "x"))]); (s [(SSym (s2l "nil"))])]));
  (803, (s2l "def self.case x; end"), Some (s [(SSym (s2l "defs")); (s [(SSym (s2l "self"))]); (SSym (s2l "case")); (s [(SSym (s2l "args")); (SSym (s2l "x"))]); (s [(SSym (s2l "nil"))])]));
  (803, (s2l "def self.class x; end"), Some (s [(SSym (s2l "defs")); (s [(SSym (s2l "self"))]); (SSym (s2l "class")); (s [(SSym (s2l "args")); (SSym (s2l "x"))]); (s [(SSym (s2l "nil"))])]));
  (803, (s2l "def self.defined x; end"), Some (s [(SSym (s2l "defs")); (s [(SSym (s2l "self"))]); (SSym (s2l "defined")); (s [(SSym (s2l "args")); (SSym (s2l "x"))]); (s [(SSym (s2l "nil"))])]));
  (803, (s2l "def self.def x; end"), Some (s [(SSym (s2l "defs")); (s [(SSym (s2l "self"))]); (SSym (s2l "def")); (s [(SSym (s2l "args")); (SSym (s2l "x"))]); (s [(SSym (s2l "nil"))])]));
  (803, (s2l "def self.do x; end"), Some (s [(SSym (s2l "defs")); (s [(SSym (s2l "self"))]); (SSym (s2l "do")); (s [(SSym (s2l "args")); (SSym (s2l "x"))]); (s [(SSym (s2l "nil"))])]));
  (803, (s2l "def self.else x; end"), Some (s [(SSym (s2l "defs")); (s [(SSym (s2l "self"))]); (SSym (s2l "else")); (s [(SSym (s2l "args")); (SSym (s2l "x"))]); (s [(SSym (s2l "nil"))])]));
  (803, (s2l "def self.elsif x; end"), Some (s [(SSym (s2l "defs")); (s [(SSym (s2l "self"))]); (SSym (s2l "elsif")); (s [(SSym (s2l "args")); (SSym (s2l "x"))]); (s [(SSym (s2l "nil"))])]));
  (803, (s2l "def self.encoding x; end"), Some (s [(SSym (s2l "defs")); (s [(SSym (s2l "self"))]); (SSym (s2l "encoding")); (s [(SSym (s2l "args")); (SSym (s2l "x"))]); (s [(SSym (s2l "nil"))])]));
  (803, (s2l "def self.end x; end"), Some (s [(SSym (s2l "defs")); (s [(SSym (s2l "self"))]); (SSym (s2l "end")); (s [(SSym (s2l "args")); (SSym (s2l "x"))]); (s [(SSym (s2l "nil"))])]));
  (803, (s2l "def self.end x; end"), Some (s [(SSym (s2l "defs")); (s [(SSym (s2l "self"))]); (SSym (s2l "end")); (s [(SSym (s2l "args")); (SSym (s2l "x"))]); (s [(SSym (s2l "nil"))])]));
  (803, (s2l "def self.ensure x; end"), Some (s [(SSym (s2l "defs")); (s [(SSym (s2l "self"))]); (SSym (s2l "ensure")); (s [(SSym (s2l "args")); (SSym (s2l "x"))]); (s [(SSym (s2l "nil"))])]));
  (803, (s2l "def self.false x; end"), Some (s [(SSym (s2l "defs")); (s [(SSym (s2l "self"))]); (SSym (s2l "false")); (s [(SSym (s2l "args")); (SSym (s2l "x"))]); (s [(SSym (s2l "nil"))])]));
  (803, (s2l "def self.file x; end"), Some (s [(SSym (s2l "defs")); (s [(SSym (s2l "self"))]); (SSym (s2l "file")); (s [(SSym (s2l "args")); (SSym (s2l "x"))]); (s [(SSym (s2l "nil"))])]));
  (803, (s2l "def self.for x; end"), Some (s [(SSym (s2l "defs")); (s [(SSym (s2l "self"))]); (SSym (s2l "for")); (s [(SSym (s2l "args")); (SSym (s2l "x"))]); (s [(SSym (s2l "nil"))])]));
  (803, (s2l "def self.if x; end"), Some (s [(SSym (s2l "defs")); (s [(SSym (s2l "self"))]); (SSym (s2l "if")); (s [(SSym (s2l "args")); (SSym (s2l "x"))]); (s [(SSym (s2l "nil"))])]));
  (803, (s2l "def self.in x; end"), Some (s [(SSym (s2l "defs")); (s [(SSym (s2l "self"))]); (SSym (s2l "in")); (s [(SSym (s2l "args")); (SSym (s2l "x"))]); (s [(SSym (s2l "nil"))])]));
  (803, (s2l "def self.line x; end"), Some (s [(SSym (s2l "defs")); (s [(SSym (s2l "self"))]); (SSym (s2l "line")); (s [(SSym (s2l "args")); (SSym (s2l "x"))]); (s [(SSym (s2l "nil"))])]));
  (803, (s2l "def self.module x; end"), Some (s [(SSym (s2l "defs")); (s [(SSym (s2l "self"))]); (SSym (s2l "module")); (s [(SSym (s2l "args")); (SSym (s2l "x"))]); (s [(SSym (s2l "nil"))])]));
  (803, (s2l "def self.next x; end"), Some (s [(SSym (s2l "defs")); (s [(SSym (s2l "self"))]); (SSym (s2l "next")); (s [(SSym (s2l "args")); (SSym (s2l "x"))]); (s [(SSym (s2l "nil"))])]));
  (803, (s2l "def self.nil x; end"), Some (s [(SSym (s2l "defs")); (s [(SSym (s2l "self"))]); (SSym (s2l "nil")); (s [(SSym (s2l "args")); (SSym (s2l "x"))]); (s [(SSym (s2l "nil"))])]));
  (803, (s2l "def self.not x; end"), Some (s [(SSym (s2l "defs")); (s [(SSym (s2l "self"))]); (SSym (s2l "not")); (s [(SSym (s2l "args")); (SSym (s2l "x"))]); (s [(SSym (s2l "nil"))])]));
  (803, (s2l "def self.or x; end"), Some (s [(SSym (s2l "defs")); (s [(SSym (s2l "self"))]); (SSym (s2l "or")); (s [(SSym (s2l "args")); (SSym (s2l "x"))]); (s [(SSym (s2l "nil"))])]));
  (803, (s2l "def self.redo x; end"), Some (s [(SSym (s2l "defs")); (s [(SSym (s2l "self"))]); (SSym (s2l "redo")); (s [(SSym (s2l "args")); (SSym (s2l "x"))]); (s [(SSym (s2l "nil"))])]));
  (803, (s2l "def self.rescue x; end"), Some (s [(SSym (s2l "defs")); (s [(SSym (s2l "self"))]); (SSym (s2l "rescue")); (s [(SSym (s2l "args")); (SSym (s2l "x"))]); (s [(SSym (s2l "nil"))])]));
  (803, (s2l "def self.retry x; end"), Some (s [(SSym (s2l "defs")); (s [(SSym (s2l "self"))]); (SSym (s2l "retry")); (s [(SSym (s2l "args")); (SSym (s2l "x"))]); (s [(SSym (s2l "nil"))])]));
  (803, (s2l "def self.return x; end"), Some (s [(SSym (s2l "defs")); (s [(SSym (s2l "self"))]); (SSym (s2l "return")); (s [(SSym (s2l "args")); (SSym (s2l "x"))]); (s [(SSym (s2l "nil"))])]));
  (803, (s2l "def self.self x; end"), Some (s [(SSym (s2l "defs")); (s [(SSym (s2l "self"))]); (SSym (s2l "self")); (s [(SSym (s2l "args")); (SSym (s2l "x"))]); (s [(SSym (s2l "nil"))])]));
  (803, (s2l "def self.super x; end"), Some (s [(SSym (s2l "defs")); (s [(SSym (s2l "self"))]); (SSym (s2l "super")); (s [(SSym (s2l "args")); (SSym (s2l "x"))]); (s [(SSym (s2l "nil"))])]));
  (803, (s2l "def self.then x; end"), Some (s [(SSym (s2l "defs")); (s [(SSym (s2l "self"))]); (SSym (s2l "then")); (s [(SSym (s2l "args")); (SSym (s2l "x"))]); (s [(SSym (s2l "nil"))])]));
  (803, (s2l "def self.true x; end"), Some (s [(SSym (s2l "defs")); (s [(SSym (s2l "self"))]); (SSym (s2l "true")); (s [(SSym (s2l "args")); (SSym (s2l "x"))]); (s [(SSym (s2l "nil"))])]));
  (803, (s2l "def self.undef x; end"), Some (s [(SSym (s2l "defs")); (s [(SSym (s2l "self"))]); (SSym (s2l "undef")); (s [(SSym (s2l "args")); (SSym (s2l "x"))]); (s [(SSym (s2l "nil"))])]));
  (803, (s2l "def self.unless x; end"), Some (s [(SSym (s2l "defs")); (s [(SSym (s2l "self"))]); (SSym (s2l "unless")); (s [(SSym (s2l "args")); (SSym (s2l "x"))]); (s [(SSym (s2l "nil"))])]));
  (803, (s2l "def self.until x; end"), Some (s [(SSym (s2l "defs")); (s [(SSym (s2l "self"))]); (SSym (s2l "until")); (s [(SSym (s2l "args")); (SSym (s2l "x"))]); (s [(SSym (s2l "nil"))])]));
  (803, (s2l "def self.when x; end"), Some (s [(SSym (s2l "defs")); (s [(SSym (s2l "self"))]); (SSym (s2l "when")); (s [(SSym (s2l "args")); (SSym (s2l "x"))]); (s [(SSym (s2l "nil"))])]));
  (803, (s2l "def self.while x; end"), Some (s [(SSym (s2l "defs")); (s [(SSym (s2l "self"))]); (SSym (s2l "while")); (s [(SSym (s2l "args")); (SSym (s2l "x"))]); (s [(SSym (s2l "nil"))])]));
  (803, (s2l "def self.yield x; end"), Some (s [(SSym (s2l "defs")); (s [(SSym (s2l "self"))]); (SSym (s2l "yield")); (s [(SSym (s2l "args")); (SSym (s2l "x"))]); (s [(SSym (s2l "nil"))])]));
  (808, (s2l "foo"), Some (s [(SSym (s2l "call")); SNil; (SSym (s2l "foo"))]));
  (809, (s2l "foo?"), Some (s [(SSym (s2l "call")); SNil; (SSym (s2l "foo?"))]));
  (810, (s2l "foo = 1; foo"), Some (s [(SSym (s2l "block")); (s [(SSym (s2l "lasgn")); (SSym (s2l "foo")); (s [(SSym (s2l "lit")); (SInt (1))])]); (s [(SSym (s2l "lvar")); (SSym (s2l "foo"))])]));
  (811, (s2l "foo ||= 1; foo"), Some (s [(SSym (s2l "block")); (s [(SSym (s2l "op_asgn_or")); (s [(SSym (s2l "lvar")); (SSym (s2l "foo"))]); (s [(SSym (s2l "lasgn")); (SSym (s2l "foo")); (s [(SSym (s2l "lit")); (SInt (1))])])]); (s [(SSym (s2l "lvar")); (SSym (s2l "foo"))])]));
  (812, (s2l "foo = 1; def bar; foo; end"), Some (s [(SSym (s2l "block")); (s [(SSym (s2l "lasgn")); (SSym (s2l "foo")); (s [(SSym (s2l "lit")); (SInt (1))])]); (s [(SSym (s2l "defn")); (SSym (s2l "bar")); (s [(SSym (s2l "args"))]); (s [(SSym (s2l "call")); SNil; (SSym (s2l "foo"))])])]));
  (813, (s2l "@foo = 1; foo"), Some (s [(SSym (s2l "block")); (s [(SSym (s2l "iasgn")); (SSym (s2l "@foo")); (s [(SSym (s2l "lit")); (SInt (1))])]); (s [(SSym (s2l "call")); SNil; (SSym (s2l "foo"))])]));
  (814, (s2l "foo, bar = [1, 2]; foo; bar"), Some (s [(SSym (s2l "block")); (s [(SSym (s2l "masgn")); (s [(SSym (s2l "array")); (s [(SSym (s2l "lasgn")); (SSym (s2l "foo"))]); (s [(SSym (s2l "lasgn")); (SSym (s2l "bar"))])]); (s [(SSym (s2l "to_ary")); (s [(SSym (s2l "array")); (s [(SSym (s2l "lit")); (SInt (1))]); (s [(SSym (s2l "lit")); (SInt (2))])])])]); (s [(SSym (s2l "lvar")); (SSym (s2l "foo"))]); (s [(SSym (s2l "lvar")); (SSym (s2l "bar"))])]));
  (815, (s2l "(foo, (bar, baz)) = [1, [2, 3]]; foo; bar; baz"), Some (s [(SSym (s2l "block")); (s [(SSym (s2l "masgn")); (s [(SSym (s2l "array")); (s [(SSym (s2l "lasgn")); (SSym (s2l "foo"))]); (s [(SSym (s2l "masgn")); (s [(SSym (s2l "array")); (s [(SSym (s2l "lasgn")); (SSym (s2l "bar"))]); (s [(SSym (s2l "lasgn")); (SSym (s2l "baz"))])])])]); (s [(SSym (s2l "to_ary")); (s [(SSym (s2l "array")); (s [(SSym (s2l "lit")); (SInt (1))]); (s [(SSym (s2l "array")); (s [(SSym (s2l "lit")); (SInt (2))]); (s [(SSym (s2l "lit")); (SInt (3))])])])])]); (s [(SSym (s2l "lvar")); (SSym (s2l "foo"))]); (s [(SSym (s2l "lvar")); (SSym (s2l "bar"))]); (s [(SSym (s2l "lvar")); (SSym (s2l "baz"))])]));
  (819, (s2l "a *= 2"), Some (s [(SSym (s2l "lasgn")); (SSym (s2l "a")); (s [(SSym (s2l "call")); (s [(SSym (s2l "lvar")); (SSym (s2l "a"))]); (SSym (s2l "*")); (s [(SSym (s2l "lit")); (SInt (2))])])]));
  (820, (s2l "@a *= 2"), Some (s [(SSym (s2l "iasgn")); (SSym (s2l "@a")); (s [(SSym (s2l "call")); (s [(SSym (s2l "ivar")); (SSym (s2l "@a"))]); (SSym (s2l "*")); (s [(SSym (s2l "lit")); (SInt (2))])])]));
  (821, (s2l "@@a *= 2"), Some (s [(SSym (s2l "cvdecl")); (SSym (s2l "@@a")); (s [(SSym (s2l "call")); (s [(SSym (s2l "cvar")); (SSym (s2l "@@a"))]); (SSym (s2l "*")); (s [(SSym (s2l "lit")); (SInt (2))])])]));
  (822, (s2l "$a *= 2"), Some (s [(SSym (s2l "gasgn")); (SSym (s2l "$a")); (s [(SSym (s2l "call")); (s [(SSym (s2l "gvar")); (SSym (s2l "$a"))]); (SSym (s2l "*")); (s [(SSym (s2l "lit")); (SInt (2))])])]));
  (823, (s2l "A *= 2"), Some (s [(SSym (s2l "cdecl")); (SSym (s2l "A")); (s [(SSym (s2l "call")); (s [(SSym (s2l "const")); (SSym (s2l "A"))]); (SSym (s2l "*")); (s [(SSym (s2l "lit")); (SInt (2))])])]));
  (824, (s2l "::A *= 2"), Some (s [(SSym (s2l "op_asgn")); (s [(SSym (s2l "colon3")); (SSym (s2l "A"))]); (SSym (s2l "*")); (s [(SSym (s2l "lit")); (SInt (2))])]));
  (825, (s2l "A::B *= 2"), Some (s [(SSym (s2l "op_asgn")); (s [(SSym (s2l "colon2")); (s [(SSym (s2l "const")); (SSym (s2l "A"))]); (SSym (s2l "B"))]); (SSym (s2l "*")); (s [(SSym (s2l "lit")); (SInt (2))])]));
  (826, (s2l "::A *= c"), Some (s [(SSym (s2l "op_asgn")); (s [(SSym (s2l "colon3")); (SSym (s2l "A"))]); (SSym (s2l "*")); (s [(SSym (s2l "call")); SNil; (SSym (s2l "c"))])]));
  (827, (s2l "A::B *= c"), Some (s [(SSym (s2l "op_asgn")); (s [(SSym (s2l "colon2")); (s [(SSym (s2l "const")); (SSym (s2l "A"))]); (SSym (s2l "B"))]); (SSym (s2l "*")); (s [(SSym (s2l "call")); SNil; (SSym (s2l "c"))])]));
  (828, (s2l "x[] *= 2"), Some (s [(SSym (s2l "op_asgn1")); (s [(SSym (s2l "call")); SNil; (SSym (s2l "x"))]); SNil; (SSym (s2l "*")); (s [(SSym (s2l "lit")); (SInt (2))])]));
  (829, (s2l "x[:y] *= 2"), Some (s [(SSym (s2l "op_asgn1")); (s [(SSym (s2l "call")); SNil; (SSym (s2l "x"))]); (s [(SSym (s2l "arglist")); (s [(SSym (s2l "lit")); (SSym (s2l "y"))])]); (SSym (s2l "*")); (s [(SSym (s2l "lit")); (SInt (2))])]));
  (830, (s2l "x.y *= 2"), Some (s [(SSym (s2l "op_asgn2")); (s [(SSym (s2l "call")); SNil; (SSym (s2l "x"))]); (SSym (s2l "y=")); (SSym (s2l "*")); (s [(SSym (s2l "lit")); (SInt (2))])]));
  (831, (s2l "a ||= c 1"), Some (s [(SSym (s2l "op_asgn_or")); (s [(SSym (s2l "lvar")); (SSym (s2l "a"))]); (s [(SSym (s2l "lasgn")); (SSym (s2l "a")); (s [(SSym (s2l "call")); SNil; (SSym (s2l "c")); (s [(SSym (s2l "lit")); (SInt (1))])])])]));
  (832, (s2l "x &&= 1"), Some (s [(SSym (s2l "op_asgn_and")); (s [(SSym (s2l "lvar")); (SSym (s2l "x"))]); (s [(SSym (s2l "lasgn")); (SSym (s2l "x")); (s [(SSym (s2l "lit")); (SInt (1))])])]));
  (833, (s2l "x[y] &&= 1"), Some (s [(SSym (s2l "op_asgn1")); (s [(SSym (s2l "call")); SNil; (SSym (s2l "x"))]); (s [(SSym (s2l "arglist")); (s [(SSym (s2l "call")); SNil; (SSym (s2l "y"))])]); (SSym (s2l "&&")); (s [(SSym (s2l "lit")); (SInt (1))])]));
  (834, (s2l "x ||= 1"), Some (s [(SSym (s2l "op_asgn_or")); (s [(SSym (s2l "lvar")); (SSym (s2l "x"))]); (s [(SSym (s2l "lasgn")); (SSym (s2l "x")); (s [(SSym (s2l "lit")); (SInt (1))])])]));
  (835, (s2l "x[y] ||= 1"), Some (s [(SSym (s2l "op_asgn1")); (s [(SSym (s2l "call")); SNil; (SSym (s2l "x"))]); (s [(SSym (s2l "arglist")); (s [(SSym (s2l "call")); SNil; (SSym (s2l "y"))])]); (SSym (s2l "||")); (s [(SSym (s2l "lit")); (SInt (1))])]));
  (836, (s2l "x += 1"), Some (s [(SSym (s2l "lasgn")); (SSym (s2l "x")); (s [(SSym (s2l "call")); (s [(SSym (s2l "lvar")); (SSym (s2l "x"))]); (SSym (s2l "+")); (s [(SSym (s2l "lit")); (SInt (1))])])]));
  (837, (s2l "x -= 1"), Some (s [(SSym (s2l "lasgn")); (SSym (s2l "x")); (s [(SSym (s2l "call")); (s [(SSym (s2l "lvar")); (SSym (s2l "x"))]); (SSym (s2l "-")); (s [(SSym (s2l "lit")); (SInt (1))])])]));
  (838, (s2l "x *= 1"), Some (s [(SSym (s2l "lasgn")); (SSym (s2l "x")); (s [(SSym (s2l "call")); (s [(SSym (s2l "lvar")); (SSym (s2l "x"))]); (SSym (s2l "*")); (s [(SSym (s2l "lit")); (SInt (1))])])]));
  (839, (s2l "x **= 1"), Some (s [(SSym (s2l "lasgn")); (SSym (s2l "x")); (s [(SSym (s2l "call")); (s [(SSym (s2l "lvar")); (SSym (s2l "x"))]); (SSym (s2l "**")); (s [(SSym (s2l "lit")); (SInt (1))])])]));
  (840, (s2l "x /= 1"), Some (s [(SSym (s2l "lasgn")); (SSym (s2l "x")); (s [(SSym (s2l "call")); (s [(SSym (s2l "lvar")); (SSym (s2l "x"))]); (SSym (s2l "/")); (s [(SSym (s2l "lit")); (SInt (1))])])]));
  (841, (s2l "x %= 1"), Some (s [(SSym (s2l "lasgn")); (SSym (s2l "x")); (s [(SSym (s2l "call")); (s [(SSym (s2l "lvar")); (SSym (s2l "x"))]); (SSym (s2l "%")); (s [(SSym (s2l "lit")); (SInt (1))])])]));
  (842, (s2l "x |= 1"), Some (s [(SSym (s2l "lasgn")); (SSym (s2l "x")); (s [(SSym (s2l "call")); (s [(SSym (s2l "lvar")); (SSym (s2l "x"))]); (SSym (s2l "|")); (s [(SSym (s2l "lit")); (SInt (1))])])]));
  (843, (s2l "x &= 1"), Some (s [(SSym (s2l "lasgn")); (SSym (s2l "x")); (s [(SSym (s2l "call")); (s [(SSym (s2l "lvar")); (SSym (s2l "x"))]); (SSym (s2l "&")); (s [(SSym (s2l "lit")); (SInt (1))])])]));
  (844, (s2l "x >>= 1"), Some (s [(SSym (s2l "lasgn")); (SSym (s2l "x")); (s [(SSym (s2l "call")); (s [(SSym (s2l "lvar")); (SSym (s2l "x"))]); (SSym (s2l ">>")); (s [(SSym (s2l "lit")); (SInt (1))])])]));
  (845, (s2l "x <<= 1"), Some (s [(SSym (s2l "lasgn")); (SSym (s2l "x")); (s [(SSym (s2l "call")); (s [(SSym (s2l "lvar")); (SSym (s2l "x"))]); (SSym (s2l "<<")); (s [(SSym (s2l "lit")); (SInt (1))])])]));
  (846, (s2l "x = y += 1"), Some (s [(SSym (s2l "lasgn")); (SSym (s2l "x")); (s [(SSym (s2l "lasgn")); (SSym (s2l "y")); (s [(SSym (s2l "call")); (s [(SSym (s2l "lvar")); (SSym (s2l "y"))]); (SSym (s2l "+")); (s [(SSym (s2l "lit")); (SInt (1))])])])]));
  (847, (s2l "x += y += 1"), Some (s [(SSym (s2l "lasgn")); (SSym (s2l "x")); (s [(SSym (s2l "call")); (s [(SSym (s2l "lvar")); (SSym (s2l "x"))]); (SSym (s2l "+")); (s [(SSym (s2l "lasgn")); (SSym (s2l "y")); (s [(SSym (s2l "call")); (s [(SSym (s2l "lvar")); (SSym (s2l "y"))]); (SSym (s2l "+")); (s [(SSym (s2l "lit")); (SInt (1))])])])])]));
  (848, (s2l "x == y += 1"), Some (s [(SSym (s2l "call")); (s [(SSym (s2l "call")); SNil; (SSym (s2l "x"))]); (SSym (s2l "==")); (s [(SSym (s2l "lasgn")); (SSym (s2l "y")); (s [(SSym (s2l "call")); (s [(SSym (s2l "lvar")); (SSym (s2l "y"))]); (SSym (s2l "+")); (s [(SSym (s2l "lit")); (SInt (1))])])])]));
  (849, (s2l "x =~ y += 1"), Some (s [(SSym (s2l "call")); (s [(SSym (s2l "call")); SNil; (SSym (s2l "x"))]); (SSym (s2l "=~")); (s [(SSym (s2l "lasgn")); (SSym (s2l "y")); (s [(SSym (s2l "call")); (s [(SSym (s2l "lvar")); (SSym (s2l "y"))]); (SSym (s2l "+")); (s [(SSym (s2l "lit")); (SInt (1))])])])]));
  (853, (s2l "a.b *= c d"), Some (s [(SSym (s2l "op_asgn2")); (s [(SSym (s2l "call")); SNil; (SSym (s2l "a"))]); (SSym (s2l "b=")); (SSym (s2l "*")); (s [(SSym (s2l "call")); SNil; (SSym (s2l "c")); (s [(SSym (s2l "call")); SNil; (SSym (s2l "d"))])])]));
  (854, (s2l "a&.b *= c d"), Some (s [(SSym (s2l "safe_op_asgn2")); (s [(SSym (s2l "call")); SNil; (SSym (s2l "a"))]); (SSym (s2l "b=")); (SSym (s2l "*")); (s [(SSym (s2l "call")); SNil; (SSym (s2l "c")); (s [(SSym (s2l "call")); SNil; (SSym (s2l "d"))])])]));
  (855, (s2l "::A *= c d"), Some (s [(SSym (s2l "op_asgn")); (s [(SSym (s2l "colon3")); (SSym (s2l "A"))]); (SSym (s2l "*")); (s [(SSym (s2l "call")); SNil; (SSym (s2l "c")); (s [(SSym (s2l "call")); SNil; (SSym (s2l "d"))])])]));
  (856, (s2l "A::B *= c d"), Some (s [(SSym (s2l "op_asgn")); (s [(SSym (s2l "colon2")); (s [(SSym (s2l "const")); (SSym (s2l "A"))]); (SSym (s2l "B"))]); (SSym (s2l "*")); (s [(SSym (s2l "call")); SNil; (SSym (s2l "c")); (s [(SSym (s2l "call")); SNil; (SSym (s2l "d"))])])]));
  (857, (s2l "::A &&= 2"), Some (s [(SSym (s2l "op_asgn_and")); (s [(SSym (s2l "colon3")); (SSym (s2l "A"))]); (s [(SSym (s2l "cdecl")); (s [(SSym (s2l "colon3")); (SSym (s2l "A"))]); (s [(SSym (s2l "lit")); (SInt (2))])])]));
  (858, (s2l "A::B &&= 2"), Some (s [(SSym (s2l "op_asgn_and")); (s [(SSym (s2l "colon2")); (s [(SSym (s2l "const")); (SSym (s2l "A"))]); (SSym (s2l "B"))]); (s [(SSym (s2l "cdecl")); (s [(SSym (s2l "colon2")); (s [(SSym (s2l "const")); (SSym (s2l "A"))]); (SSym (s2l "B"))]); (s [(SSym (s2l "lit")); (SInt (2))])])]));
  (859, (s2l "a.b &&= c 1"), Some (s [(SSym (s2l "op_asgn_and")); (s [(SSym (s2l "call")); (s [(SSym (s2l "call")); SNil; (SSym (s2l "a"))]); (SSym (s2l "b"))]); (s [(SSym (s2l "attrasgn")); (s [(SSym (s2l "call")); SNil; (SSym (s2l "a"))]); (SSym (s2l "b=")); (s [(SSym (s2l "call")); SNil; (SSym (s2l "c")); (s [(SSym (s2l "lit")); (SInt (1))])])])]));
  (860, (s2l "a.b ||= c 1"), Some (s [(SSym (s2l "op_asgn_or")); (s [(SSym (s2l "call")); (s [(SSym (s2l "call")); SNil; (SSym (s2l "a"))]); (SSym (s2l "b"))]); (s [(SSym (s2l "attrasgn")); (s [(SSym (s2l "call")); SNil; (SSym (s2l "a"))]); (SSym (s2l "b=")); (s [(SSym (s2l "call")); SNil; (SSym (s2l "c")); (s [(SSym (s2l "lit")); (SInt (1))])])])]));
  (861, (s2l "a&.b &&= c 1"), Some (s [(SSym (s2l "op_asgn_and")); (s [(SSym (s2l "safe_call")); (s [(SSym (s2l "call")); SNil; (SSym (s2l "a"))]); (SSym (s2l "b"))]); (s [(SSym (s2l "safe_attrasgn")); (s [(SSym (s2l "call")); SNil; (SSym (s2l "a"))]); (SSym (s2l "b=")); (s [(SSym (s2l "call")); SNil; (SSym (s2l "c")); (s [(SSym (s2l "lit")); (SInt (1))])])])]));
  (862, (s2l "a&.b ||= c 1"), Some (s [(SSym (s2l "op_asgn_or")); (s [(SSym (s2l "safe_call")); (s [(SSym (s2l "call")); SNil; (SSym (s2l "a"))]); (SSym (s2l "b"))]); (s [(SSym (s2l "safe_attrasgn")); (s [(SSym (s2l "call")); SNil; (SSym (s2l "a"))]); (SSym (s2l "b=")); (s [(SSym (s2l "call")); SNil; (SSym (s2l "c")); (s [(SSym (s2l "lit")); (SInt (1))])])])]));
  (867, (s2l "ARGV"), Some (s [(SSym (s2l "const")); (SSym (s2l "ARGV"))]));
  (868, (s2l "Foo::Bar"), Some (s [(SSym (s2l "colon2")); (s [(SSym (s2l "const")); (SSym (s2l "Foo"))]); (SSym (s2l "Bar"))]));
  (869, (s2l "Foo::Bar::BAZ"), Some (s [(SSym (s2l "colon2")); (s [(SSym (s2l "colon2")); (s [(SSym (s2l "const")); (SSym (s2l "Foo"))]); (SSym (s2l "Bar"))]); (SSym (s2l "BAZ"))]));
  (870, (s2l "x, y = ::Bar"), Some (s [(SSym (s2l "masgn")); (s [(SSym (s2l "array")); (s [(SSym (s2l "lasgn")); (SSym (s2l "x"))]); (s [(SSym (s2l "lasgn")); (SSym (s2l "y"))])]); (s [(SSym (s2l "to_ary")); (s [(SSym (s2l "colon3")); (SSym (s2l "Bar"))])])]))].
Example parser_test_3_passes : forallb passes parser_test_3 = true.
Proof. vm_compute. reflexivity. Qed.

(** /repo/test/parser_test.rb, lines 871-1078. *)
Definition parser_test_4 : list (N * str * option sexp) := [
  (871, (s2l "Foo::bar"), Some (s [(SSym (s2l "call")); (s [(SSym (s2l "const")); (SSym (s2l "Foo"))]); (SSym (s2l "bar"))]));
  (872, (s2l "Foo::bar = 1 + 2"), Some (s [(SSym (s2l "attrasgn")); (s [(SSym (s2l "const")); (SSym (s2l "Foo"))]); (SSym (s2l "bar=")); (s [(SSym (s2l "call")); (s [(SSym (s2l "lit")); (SInt (1))]); (SSym (s2l "+")); (s [(SSym (s2l "lit")); (SInt (2))])])]));
  (873, (s2l "Foo::bar x, y"), Some (s [(SSym (s2l "call")); (s [(SSym (s2l "const")); (SSym (s2l "Foo"))]); (SSym (s2l "bar")); (s [(SSym (s2l "call")); SNil; (SSym (s2l "x"))]); (s [(SSym (s2l "call")); SNil; (SSym (s2l "y"))])]));
  (874, (s2l "-Foo::BAR"), Some (s [(SSym (s2l "call")); (s [(SSym (s2l "colon2")); (s [(SSym (s2l "const")); (SSym (s2l "Foo"))]); (SSym (s2l "BAR"))]); (SSym (s2l "-@"))]));
  (878, [111; 111; 116; 112; 195; 188; 116; 32; 61; 32; 49]%N, Some (s [(SSym (s2l "lasgn")); (SSym [111; 111; 116; 112; 195; 188; 116]%N); (s [(SSym (s2l "lit")); (SInt (1))])]));
  (882, (s2l "$foo"), Some (s [(SSym (s2l "gvar")); (SSym (s2l "$foo"))]));
  (883, (s2l "$0"), Some (s [(SSym (s2l "gvar")); (SSym (s2l "$0"))]));
  (884, (s2l "$_"), Some (s [(SSym (s2l "gvar")); (SSym (s2l "$_"))]));
  (888, (s2l "$&"), Some (s [(SSym (s2l "back_ref")); (SSym (s2l "&"))]));
  (892, (s2l "$1"), Some (s [(SSym (s2l "nth_ref")); (SInt (1))]));
  (893, (s2l "$9"), Some (s [(SSym (s2l "nth_ref")); (SInt (9))]));
  (894, (s2l "$10"), Some (s [(SSym (s2l "nth_ref")); (SInt (10))]));
  (895, (s2l "$100"), Some (s [(SSym (s2l "nth_ref")); (SInt (100))]));
  (899, (s2l "@foo"), Some (s [(SSym (s2l "ivar")); (SSym (s2l "@foo"))]));
  (903, (s2l "@@foo"), Some (s [(SSym (s2l "cvar")); (SSym (s2l "@@foo"))]));
  (907, (s2l "foo()"), Some (s [(SSym (s2l "call")); SNil; (SSym (s2l "foo"))]));
  (908, (s2l "foo ()"), Some (s [(SSym (s2l "call")); SNil; (SSym (s2l "foo")); (s [(SSym (s2l "nil"))])]));
  (909, (s2l "Foo()"), Some (s [(SSym (s2l "call")); SNil; (SSym (s2l "Foo"))]));
  (910, (s2l "Foo::Bar()"), Some (s [(SSym (s2l "call")); (s [(SSym (s2l "const")); (SSym (s2l "Foo"))]); (SSym (s2l "Bar"))]));
  (911, (s2l "foo() + bar()"), Some (s [(SSym (s2l "call")); (s [(SSym (s2l "call")); SNil; (SSym (s2l "foo"))]); (SSym (s2l "+")); (s [(SSym (s2l "call")); SNil; (SSym (s2l "bar"))])]));
  (912, (s2l "foo(1, 'baz')"), Some (s [(SSym (s2l "call")); SNil; (SSym (s2l "foo")); (s [(SSym (s2l "lit")); (SInt (1))]); (s [(SSym (s2l "str")); (SStr (s2l "baz"))])]));
  (913, (s2l "foo(a, b)"), Some (s [(SSym (s2l "call")); SNil; (SSym (s2l "foo")); (s [(SSym (s2l "call")); SNil; (SSym (s2l "a"))]); (s [(SSym (s2l "call")); SNil; (SSym (s2l "b"))])]));
  (914, (s2l "foo.bar(a, b)"), Some (s [(SSym (s2l "call")); (s [(SSym (s2l "call")); SNil; (SSym (s2l "foo"))]); (SSym (s2l "bar")); (s [(SSym (s2l "call")); SNil; (SSym (s2l "a"))]); (s [(SSym (s2l "call")); SNil; (SSym (s2l "b"))])]));
  (915, (s2l "foo.Bar(a, b)"), Some (s [(SSym (s2l "call")); (s [(SSym (s2l "call")); SNil; (SSym (s2l "foo"))]); (SSym (s2l "Bar")); (s [(SSym (s2l "call")); SNil; (SSym (s2l "a"))]); (s [(SSym (s2l "call")); SNil; (SSym (s2l "b"))])]));
  (916, [102; 111; 111; 40; 97; 44; 10; 98; 44; 10; 41]%N, Some (s [(SSym (s2l "call")); SNil; (SSym (s2l "foo")); (s [(SSym (s2l "call")); SNil; (SSym (s2l "a"))]); (s [(SSym (s2l "call")); SNil; (SSym (s2l "b"))])]));
  (917, [102; 111; 111; 40; 10; 49; 32; 43; 32; 50; 32; 32; 44; 10; 32; 32; 39; 98; 97; 122; 39; 32; 32; 10; 32; 41]%N, Some (s [(SSym (s2l "call")); SNil; (SSym (s2l "foo")); (s [(SSym (s2l "call")); (s [(SSym (s2l "lit")); (SInt (1))]); (SSym (s2l "+")); (s [(SSym (s2l "lit")); (SInt (2))])]); (s [(SSym (s2l "str")); (SStr (s2l "baz"))])]));
  (918, (s2l "foo(1, a: 2)"), Some (s [(SSym (s2l "call")); SNil; (SSym (s2l "foo")); (s [(SSym (s2l "lit")); (SInt (1))]); (s [(SSym (s2l "bare_hash")); (s [(SSym (s2l "lit")); (SSym (s2l "a"))]); (s [(SSym (s2l "lit")); (SInt (2))])])]));
  (919, (s2l "foo(1, { a: 2 })"), Some (s [(SSym (s2l "call")); SNil; (SSym (s2l "foo")); (s [(SSym (s2l "lit")); (SInt (1))]); (s [(SSym (s2l "hash")); (s [(SSym (s2l "lit")); (SSym (s2l "a"))]); (s [(SSym (s2l "lit")); (SInt (2))])])]));
  (920, (s2l "foo(1, { a: 2, :b => 3 })"), Some (s [(SSym (s2l "call")); SNil; (SSym (s2l "foo")); (s [(SSym (s2l "lit")); (SInt (1))]); (s [(SSym (s2l "hash")); (s [(SSym (s2l "lit")); (SSym (s2l "a"))]); (s [(SSym (s2l "lit")); (SInt (2))]); (s [(SSym (s2l "lit")); (SSym (s2l "b"))]); (s [(SSym (s2l "lit")); (SInt (3))])])]));
  (921, (s2l "foo(:a, :b)"), Some (s [(SSym (s2l "call")); SNil; (SSym (s2l "foo")); (s [(SSym (s2l "lit")); (SSym (s2l "a"))]); (s [(SSym (s2l "lit")); (SSym (s2l "b"))])]));
  (922, (s2l "foo(a: 1)"), Some (s [(SSym (s2l "call")); SNil; (SSym (s2l "foo")); (s [(SSym (s2l "bare_hash")); (s [(SSym (s2l "lit")); (SSym (s2l "a"))]); (s [(SSym (s2l "lit")); (SInt (1))])])]));
  (923, (s2l "foo(0, a: 1, b: 'two')"), Some (s [(SSym (s2l "call")); SNil; (SSym (s2l "foo")); (s [(SSym (s2l "lit")); (SInt (0))]); (s [(SSym (s2l "bare_hash")); (s [(SSym (s2l "lit")); (SSym (s2l "a"))]); (s [(SSym (s2l "lit")); (SInt (1))]); (s [(SSym (s2l "lit")); (SSym (s2l "b"))]); (s [(SSym (s2l "str")); (SStr (s2l "two"))])])]));
  (924, (s2l "foo(""a"": ""b"")"), Some (s [(SSym (s2l "call")); SNil; (SSym (s2l "foo")); (s [(SSym (s2l "bare_hash")); (s [(SSym (s2l "lit")); (SSym (s2l "a"))]); (s [(SSym (s2l "str")); (SStr (s2l "b"))])])]));
  (925, (s2l "foo('a': 'b')"), Some (s [(SSym (s2l "call")); SNil; (SSym (s2l "foo")); (s [(SSym (s2l "bare_hash")); (s [(SSym (s2l "lit")); (SSym (s2l "a"))]); (s [(SSym (s2l "str")); (SStr (s2l "b"))])])]));
  (926, (s2l "foo('a':'b')"), Some (s [(SSym (s2l "call")); SNil; (SSym (s2l "foo")); (s [(SSym (s2l "bare_hash")); (s [(SSym (s2l "lit")); (SSym (s2l "a"))]); (s [(SSym (s2l "str")); (SStr (s2l "b"))])])]));
  (927, (s2l "foo(""a#{1+1}"": ""b"")"), Some (s [(SSym (s2l "call")); SNil; (SSym (s2l "foo")); (s [(SSym (s2l "bare_hash")); (s [(SSym (s2l "dsym")); (SStr (s2l "a")); (s [(SSym (s2l "evstr")); (s [(SSym (s2l "call")); (s [(SSym (s2l "lit")); (SInt (1))]); (SSym (s2l "+")); (s [(SSym (s2l "lit")); (SInt (1))])])])]); (s [(SSym (s2l "str")); (SStr (s2l "b"))])])]));
  (928, (s2l "foo(bar: 1 && 2)"), Some (s [(SSym (s2l "call")); SNil; (SSym (s2l "foo")); (s [(SSym (s2l "bare_hash")); (s [(SSym (s2l "lit")); (SSym (s2l "bar"))]); (s [(SSym (s2l "and")); (s [(SSym (s2l "lit")); (SInt (1))]); (s [(SSym (s2l "lit")); (SInt (2))])])])]));
  (929, (s2l "foo(0, 1 => 2, 3 => 4)"), Some (s [(SSym (s2l "call")); SNil; (SSym (s2l "foo")); (s [(SSym (s2l "lit")); (SInt (0))]); (s [(SSym (s2l "bare_hash")); (s [(SSym (s2l "lit")); (SInt (1))]); (s [(SSym (s2l "lit")); (SInt (2))]); (s [(SSym (s2l "lit")); (SInt (3))]); (s [(SSym (s2l "lit")); (SInt (4))])])]));
  (930, (s2l "foo(a: 1, &b)"), Some (s [(SSym (s2l "call")); SNil; (SSym (s2l "foo")); (s [(SSym (s2l "bare_hash")); (s [(SSym (s2l "lit")); (SSym (s2l "a"))]); (s [(SSym (s2l "lit")); (SInt (1))])]); (s [(SSym (s2l "block_pass")); (s [(SSym (s2l "call")); SNil; (SSym (s2l "b"))])])]));
  (931, (s2l "foo(a, *b, c)"), Some (s [(SSym (s2l "call")); SNil; (SSym (s2l "foo")); (s [(SSym (s2l "call")); SNil; (SSym (s2l "a"))]); (s [(SSym (s2l "splat")); (s [(SSym (s2l "call")); SNil; (SSym (s2l "b"))])]); (s [(SSym (s2l "call")); SNil; (SSym (s2l "c"))])]));
  (932, (s2l "b=1; foo(a, *b, c)"), Some (s [(SSym (s2l "block")); (s [(SSym (s2l "lasgn")); (SSym (s2l "b")); (s [(SSym (s2l "lit")); (SInt (1))])]); (s [(SSym (s2l "call")); SNil; (SSym (s2l "foo")); (s [(SSym (s2l "call")); SNil; (SSym (s2l "a"))]); (s [(SSym (s2l "splat")); (s [(SSym (s2l "lvar")); (SSym (s2l "b"))])]); (s [(SSym (s2l "call")); SNil; (SSym (s2l "c"))])])]));
  (933, (s2l "foo.()"), Some (s [(SSym (s2l "call")); (s [(SSym (s2l "call")); SNil; (SSym (s2l "foo"))]); (SSym (s2l "call"))]));
  (934, (s2l "foo.(1, 2)"), Some (s [(SSym (s2l "call")); (s [(SSym (s2l "call")); SNil; (SSym (s2l "foo"))]); (SSym (s2l "call")); (s [(SSym (s2l "lit")); (SInt (1))]); (s [(SSym (s2l "lit")); (SInt (2))])]));
  (935, (s2l "foo(a = b, c)"), Some (s [(SSym (s2l "call")); SNil; (SSym (s2l "foo")); (s [(SSym (s2l "lasgn")); (SSym (s2l "a")); (s [(SSym (s2l "call")); SNil; (SSym (s2l "b"))])]); (s [(SSym (s2l "call")); SNil; (SSym (s2l "c"))])]));
  (936, (s2l "foo (1 + 2)"), Some (s [(SSym (s2l "call")); SNil; (SSym (s2l "foo")); (s [(SSym (s2l "call")); (s [(SSym (s2l "lit")); (SInt (1))]); (SSym (s2l "+")); (s [(SSym (s2l "lit")); (SInt (2))])])]));
  (937, (s2l "a.b (1) {c}"), Some (s [(SSym (s2l "iter")); (s [(SSym (s2l "call")); (s [(SSym (s2l "call")); SNil; (SSym (s2l "a"))]); (SSym (s2l "b")); (s [(SSym (s2l "lit")); (SInt (1))])]); (SInt (0)); (s [(SSym (s2l "call")); SNil; (SSym (s2l "c"))])]));
  (938, (s2l "a(b + c).d {e}"), Some (s [(SSym (s2l "iter")); (s [(SSym (s2l "call")); (s [(SSym (s2l "call")); SNil; (SSym (s2l "a")); (s [(SSym (s2l "call")); (s [(SSym (s2l "call")); SNil; (SSym (s2l "b"))]); (SSym (s2l "+")); (s [(SSym (s2l "call")); SNil; (SSym (s2l "c"))])])]); (SSym (s2l "d"))]); (SInt (0)); (s [(SSym (s2l "call")); SNil; (SSym (s2l "e"))])]));
  (939, (s2l "a (b + c).d {e}"), Some (s [(SSym (s2l "call")); SNil; (SSym (s2l "a")); (s [(SSym (s2l "iter")); (s [(SSym (s2l "call")); (s [(SSym (s2l "call")); (s [(SSym (s2l "call")); SNil; (SSym (s2l "b"))]); (SSym (s2l "+")); (s [(SSym (s2l "call")); SNil; (SSym (s2l "c"))])]); (SSym (s2l "d"))]); (SInt (0)); (s [(SSym (s2l "call")); SNil; (SSym (s2l "e"))])])]));
  (941, (s2l "foo("), None);
  (942, (s2l "123("), None);
  (950, (s2l "foo + bar"), Some (s [(SSym (s2l "call")); (s [(SSym (s2l "call")); SNil; (SSym (s2l "foo"))]); (SSym (s2l "+")); (s [(SSym (s2l "call")); SNil; (SSym (s2l "bar"))])]));
  (951, (s2l "foo 1, 'baz'"), Some (s [(SSym (s2l "call")); SNil; (SSym (s2l "foo")); (s [(SSym (s2l "lit")); (SInt (1))]); (s [(SSym (s2l "str")); (SStr (s2l "baz"))])]));
  (952, (s2l "foo 1 + 2"), Some (s [(SSym (s2l "call")); SNil; (SSym (s2l "foo")); (s [(SSym (s2l "call")); (s [(SSym (s2l "lit")); (SInt (1))]); (SSym (s2l "+")); (s [(SSym (s2l "lit")); (SInt (2))])])]));
  (953, [102; 111; 111; 32; 49; 32; 43; 32; 50; 32; 32; 44; 10; 32; 32; 39; 98; 97; 122; 39]%N, Some (s [(SSym (s2l "call")); SNil; (SSym (s2l "foo")); (s [(SSym (s2l "call")); (s [(SSym (s2l "lit")); (SInt (1))]); (SSym (s2l "+")); (s [(SSym (s2l "lit")); (SInt (2))])]); (s [(SSym (s2l "str")); (SStr (s2l "baz"))])]));
  (954, [102; 111; 111; 32; 39; 102; 111; 111; 39; 32; 43; 32; 39; 98; 97; 114; 39; 32; 32; 44; 10; 32; 32; 50]%N, Some (s [(SSym (s2l "call")); SNil; (SSym (s2l "foo")); (s [(SSym (s2l "call")); (s [(SSym (s2l "str")); (SStr (s2l "foo"))]); (SSym (s2l "+")); (s [(SSym (s2l "str")); (SStr (s2l "bar"))])]); (s [(SSym (s2l "lit")); (SInt (2))])]));
  (955, (s2l "foo a, b"), Some (s [(SSym (s2l "call")); SNil; (SSym (s2l "foo")); (s [(SSym (s2l "call")); SNil; (SSym (s2l "a"))]); (s [(SSym (s2l "call")); SNil; (SSym (s2l "b"))])]));
  (956, (s2l "foo 1, a: 2"), Some (s [(SSym (s2l "call")); SNil; (SSym (s2l "foo")); (s [(SSym (s2l "lit")); (SInt (1))]); (s [(SSym (s2l "bare_hash")); (s [(SSym (s2l "lit")); (SSym (s2l "a"))]); (s [(SSym (s2l "lit")); (SInt (2))])])]));
  (957, (s2l "foo 1, :a => 2, b: 3"), Some (s [(SSym (s2l "call")); SNil; (SSym (s2l "foo")); (s [(SSym (s2l "lit")); (SInt (1))]); (s [(SSym (s2l "bare_hash")); (s [(SSym (s2l "lit")); (SSym (s2l "a"))]); (s [(SSym (s2l "lit")); (SInt (2))]); (s [(SSym (s2l "lit")); (SSym (s2l "b"))]); (s [(SSym (s2l "lit")); (SInt (3))])])]));
  (958, (s2l "foo 1, { a: 2 }"), Some (s [(SSym (s2l "call")); SNil; (SSym (s2l "foo")); (s [(SSym (s2l "lit")); (SInt (1))]); (s [(SSym (s2l "hash")); (s [(SSym (s2l "lit")); (SSym (s2l "a"))]); (s [(SSym (s2l "lit")); (SInt (2))])])]));
  (959, (s2l "foo 1, { a: 2 }"), Some (s [(SSym (s2l "call")); SNil; (SSym (s2l "foo")); (s [(SSym (s2l "lit")); (SInt (1))]); (s [(SSym (s2l "hash")); (s [(SSym (s2l "lit")); (SSym (s2l "a"))]); (s [(SSym (s2l "lit")); (SInt (2))])])]));
  (960, (s2l "foo a: 1"), Some (s [(SSym (s2l "call")); SNil; (SSym (s2l "foo")); (s [(SSym (s2l "bare_hash")); (s [(SSym (s2l "lit")); (SSym (s2l "a"))]); (s [(SSym (s2l "lit")); (SInt (1))])])]));
  (961, (s2l "foo 0, a: 1, b: 'two'"), Some (s [(SSym (s2l "call")); SNil; (SSym (s2l "foo")); (s [(SSym (s2l "lit")); (SInt (0))]); (s [(SSym (s2l "bare_hash")); (s [(SSym (s2l "lit")); (SSym (s2l "a"))]); (s [(SSym (s2l "lit")); (SInt (1))]); (s [(SSym (s2l "lit")); (SSym (s2l "b"))]); (s [(SSym (s2l "str")); (SStr (s2l "two"))])])]));
  (962, (s2l "foo ""a"": ""b"""), Some (s [(SSym (s2l "call")); SNil; (SSym (s2l "foo")); (s [(SSym (s2l "bare_hash")); (s [(SSym (s2l "lit")); (SSym (s2l "a"))]); (s [(SSym (s2l "str")); (SStr (s2l "b"))])])]));
  (963, (s2l "foo 'a': 'b'"), Some (s [(SSym (s2l "call")); SNil; (SSym (s2l "foo")); (s [(SSym (s2l "bare_hash")); (s [(SSym (s2l "lit")); (SSym (s2l "a"))]); (s [(SSym (s2l "str")); (SStr (s2l "b"))])])]));
  (964, (s2l "foo 'a':'b'"), Some (s [(SSym (s2l "call")); SNil; (SSym (s2l "foo")); (s [(SSym (s2l "bare_hash")); (s [(SSym (s2l "lit")); (SSym (s2l "a"))]); (s [(SSym (s2l "str")); (SStr (s2l "b"))])])]));
  (965, (s2l "foo ""a#{1+1}"": ""b"""), Some (s [(SSym (s2l "call")); SNil; (SSym (s2l "foo")); (s [(SSym (s2l "bare_hash")); (s [(SSym (s2l "dsym")); (SStr (s2l "a")); (s [(SSym (s2l "evstr")); (s [(SSym (s2l "call")); (s [(SSym (s2l "lit")); (SInt (1))]); (SSym (s2l "+")); (s [(SSym (s2l "lit")); (SInt (1))])])])]); (s [(SSym (s2l "str")); (SStr (s2l "b"))])])]));
  (966, (s2l "foo a: 1, &b"), Some (s [(SSym (s2l "call")); SNil; (SSym (s2l "foo")); (s [(SSym (s2l "bare_hash")); (s [(SSym (s2l "lit")); (SSym (s2l "a"))]); (s [(SSym (s2l "lit")); (SInt (1))])]); (s [(SSym (s2l "block_pass")); (s [(SSym (s2l "call")); SNil; (SSym (s2l "b"))])])]));
  (967, (s2l "foo :a, :b"), Some (s [(SSym (s2l "call")); SNil; (SSym (s2l "foo")); (s [(SSym (s2l "lit")); (SSym (s2l "a"))]); (s [(SSym (s2l "lit")); (SSym (s2l "b"))])]));
  (968, (s2l "self.class"), Some (s [(SSym (s2l "call")); (s [(SSym (s2l "self"))]); (SSym (s2l "class"))]));
  (969, (s2l "self.begin"), Some (s [(SSym (s2l "call")); (s [(SSym (s2l "self"))]); (SSym (s2l "begin"))]));
  (970, (s2l "self.end"), Some (s [(SSym (s2l "call")); (s [(SSym (s2l "self"))]); (SSym (s2l "end"))]));
  (971, (s2l "describe :enumeratorize, shared: true"), Some (s [(SSym (s2l "call")); SNil; (SSym (s2l "describe")); (s [(SSym (s2l "lit")); (SSym (s2l "enumeratorize"))]); (s [(SSym (s2l "bare_hash")); (s [(SSym (s2l "lit")); (SSym (s2l "shared"))]); (s [(SSym (s2l "true"))])])]));
  (972, [100; 101; 115; 99; 114; 105; 98; 101; 32; 58; 101; 110; 117; 109; 101; 114; 97; 116; 111; 114; 105; 122; 101; 44; 32; 115; 104; 97; 114; 101; 100; 58; 32; 116; 114; 117; 101; 32; 100; 111; 10; 110; 105; 108; 10; 101; 110; 100]%N, Some (s [(SSym (s2l "iter")); (s [(SSym (s2l "call")); SNil; (SSym (s2l "describe")); (s [(SSym (s2l "lit")); (SSym (s2l "enumeratorize"))]); (s [(SSym (s2l "bare_hash")); (s [(SSym (s2l "lit")); (SSym (s2l "shared"))]); (s [(SSym (s2l "true"))])])]); (SInt (0)); (s [(SSym (s2l "nil"))])]));
  (973, (s2l "foo a = b, c"), Some (s [(SSym (s2l "call")); SNil; (SSym (s2l "foo")); (s [(SSym (s2l "lasgn")); (SSym (s2l "a")); (s [(SSym (s2l "call")); SNil; (SSym (s2l "b"))])]); (s [(SSym (s2l "call")); SNil; (SSym (s2l "c"))])]));
  (974, (s2l "foo a = b if bar"), Some (s [(SSym (s2l "if")); (s [(SSym (s2l "call")); SNil; (SSym (s2l "bar"))]); (s [(SSym (s2l "call")); SNil; (SSym (s2l "foo")); (s [(SSym (s2l "lasgn")); (SSym (s2l "a")); (s [(SSym (s2l "call")); SNil; (SSym (s2l "b"))])])]); SNil]));
  (975, (s2l "foo a && b"), Some (s [(SSym (s2l "call")); SNil; (SSym (s2l "foo")); (s [(SSym (s2l "and")); (s [(SSym (s2l "call")); SNil; (SSym (s2l "a"))]); (s [(SSym (s2l "call")); SNil; (SSym (s2l "b"))])])]));
  (976, (s2l "foo a || b"), Some (s [(SSym (s2l "call")); SNil; (SSym (s2l "foo")); (s [(SSym (s2l "or")); (s [(SSym (s2l "call")); SNil; (SSym (s2l "a"))]); (s [(SSym (s2l "call")); SNil; (SSym (s2l "b"))])])]));
  (977, (s2l "foo a ? b : c"), Some (s [(SSym (s2l "call")); SNil; (SSym (s2l "foo")); (s [(SSym (s2l "if")); (s [(SSym (s2l "call")); SNil; (SSym (s2l "a"))]); (s [(SSym (s2l "call")); SNil; (SSym (s2l "b"))]); (s [(SSym (s2l "call")); SNil; (SSym (s2l "c"))])])]));
  (978, (s2l "foo a += 1"), Some (s [(SSym (s2l "call")); SNil; (SSym (s2l "foo")); (s [(SSym (s2l "lasgn")); (SSym (s2l "a")); (s [(SSym (s2l "call")); (s [(SSym (s2l "lvar")); (SSym (s2l "a"))]); (SSym (s2l "+")); (s [(SSym (s2l "lit")); (SInt (1))])])])]));
  (979, (s2l "foo a += 1, 2"), Some (s [(SSym (s2l "call")); SNil; (SSym (s2l "foo")); (s [(SSym (s2l "lasgn")); (SSym (s2l "a")); (s [(SSym (s2l "call")); (s [(SSym (s2l "lvar")); (SSym (s2l "a"))]); (SSym (s2l "+")); (s [(SSym (s2l "lit")); (SInt (1))])])]); (s [(SSym (s2l "lit")); (SInt (2))])]));
  (980, (s2l "foo a and b"), Some (s [(SSym (s2l "and")); (s [(SSym (s2l "call")); SNil; (SSym (s2l "foo")); (s [(SSym (s2l "call")); SNil; (SSym (s2l "a"))])]); (s [(SSym (s2l "call")); SNil; (SSym (s2l "b"))])]));
  (981, (s2l "foo a and b { 1 }"), Some (s [(SSym (s2l "and")); (s [(SSym (s2l "call")); SNil; (SSym (s2l "foo")); (s [(SSym (s2l "call")); SNil; (SSym (s2l "a"))])]); (s [(SSym (s2l "iter")); (s [(SSym (s2l "call")); SNil; (SSym (s2l "b"))]); (SInt (0)); (s [(SSym (s2l "lit")); (SInt (1))])])]));
  (982, [102; 111; 111; 32; 97; 32; 97; 110; 100; 32; 98; 32; 100; 111; 10; 49; 10; 101; 110; 100]%N, Some (s [(SSym (s2l "and")); (s [(SSym (s2l "call")); SNil; (SSym (s2l "foo")); (s [(SSym (s2l "call")); SNil; (SSym (s2l "a"))])]); (s [(SSym (s2l "iter")); (s [(SSym (s2l "call")); SNil; (SSym (s2l "b"))]); (SInt (0)); (s [(SSym (s2l "lit")); (SInt (1))])])]));
  (983, (s2l "foo a == b, c"), Some (s [(SSym (s2l "call")); SNil; (SSym (s2l "foo")); (s [(SSym (s2l "call")); (s [(SSym (s2l "call")); SNil; (SSym (s2l "a"))]); (SSym (s2l "==")); (s [(SSym (s2l "call")); SNil; (SSym (s2l "b"))])]); (s [(SSym (s2l "call")); SNil; (SSym (s2l "c"))])]));
  (984, (s2l "foo self: a"), Some (s [(SSym (s2l "call")); SNil; (SSym (s2l "foo")); (s [(SSym (s2l "bare_hash")); (s [(SSym (s2l "lit")); (SSym (s2l "self"))]); (s [(SSym (s2l "call")); SNil; (SSym (s2l "a"))])])]));
  (985, (s2l "foo:bar"), Some (s [(SSym (s2l "call")); SNil; (SSym (s2l "foo")); (s [(SSym (s2l "lit")); (SSym (s2l "bar"))])]));
  (986, (s2l "p foo:bar"), Some (s [(SSym (s2l "call")); SNil; (SSym (s2l "p")); (s [(SSym (s2l "bare_hash")); (s [(SSym (s2l "lit")); (SSym (s2l "foo"))]); (s [(SSym (s2l "call")); SNil; (SSym (s2l "bar"))])])]));
  (987, (s2l "p for:bar"), Some (s [(SSym (s2l "call")); SNil; (SSym (s2l "p")); (s [(SSym (s2l "bare_hash")); (s [(SSym (s2l "lit")); (SSym (s2l "for"))]); (s [(SSym (s2l "call")); SNil; (SSym (s2l "bar"))])])]));
  (988, (s2l "Foo:bar"), Some (s [(SSym (s2l "call")); SNil; (SSym (s2l "Foo")); (s [(SSym (s2l "lit")); (SSym (s2l "bar"))])]));
  (989, (s2l "p Foo:bar"), Some (s [(SSym (s2l "call")); SNil; (SSym (s2l "p")); (s [(SSym (s2l "bare_hash")); (s [(SSym (s2l "lit")); (SSym (s2l "Foo"))]); (s [(SSym (s2l "call")); SNil; (SSym (s2l "bar"))])])]));
  (990, (s2l "p 'foo':'bar'"), Some (s [(SSym (s2l "call")); SNil; (SSym (s2l "p")); (s [(SSym (s2l "bare_hash")); (s [(SSym (s2l "lit")); (SSym (s2l "foo"))]); (s [(SSym (s2l "str")); (SStr (s2l "bar"))])])]));
  (991, (s2l "p ""foo"":""bar"""), Some (s [(SSym (s2l "call")); SNil; (SSym (s2l "p")); (s [(SSym (s2l "bare_hash")); (s [(SSym (s2l "lit")); (SSym (s2l "foo"))]); (s [(SSym (s2l "str")); (SStr (s2l "bar"))])])]));
  (992, (s2l "p $1"), Some (s [(SSym (s2l "call")); SNil; (SSym (s2l "p")); (s [(SSym (s2l "nth_ref")); (SInt (1))])]));
  (993, (s2l "for:bar"), None);
  (994, (s2l "Foo::Bar :bar"), Some (s [(SSym (s2l "call")); (s [(SSym (s2l "const")); (SSym (s2l "Foo"))]); (SSym (s2l "Bar")); (s [(SSym (s2l "lit")); (SSym (s2l "bar"))])]));
  (995, (s2l "Foo::Bar:bar"), Some (s [(SSym (s2l "call")); (s [(SSym (s2l "const")); (SSym (s2l "Foo"))]); (SSym (s2l "Bar")); (s [(SSym (s2l "lit")); (SSym (s2l "bar"))])]));
  (996, (s2l "p Foo::Bar:bar"), Some (s [(SSym (s2l "call")); SNil; (SSym (s2l "p")); (s [(SSym (s2l "call")); (s [(SSym (s2l "const")); (SSym (s2l "Foo"))]); (SSym (s2l "Bar")); (s [(SSym (s2l "lit")); (SSym (s2l "bar"))])])]));
  (997, (s2l "::Bar :bar"), None);
  (998, (s2l "foo $&"), Some (s [(SSym (s2l "call")); SNil; (SSym (s2l "foo")); (s [(SSym (s2l "back_ref")); (SSym (s2l "&"))])]));
  (999, (s2l "foo ::Bar"), Some (s [(SSym (s2l "call")); SNil; (SSym (s2l "foo")); (s [(SSym (s2l "colon3")); (SSym (s2l "Bar"))])]));
  (1000, (s2l "Foo ::Bar"), Some (s [(SSym (s2l "call")); SNil; (SSym (s2l "Foo")); (s [(SSym (s2l "colon3")); (SSym (s2l "Bar"))])]));
  (1004, (s2l "foo&.bar"), Some (s [(SSym (s2l "safe_call")); (s [(SSym (s2l "call")); SNil; (SSym (s2l "foo"))]); (SSym (s2l "bar"))]));
  (1005, [102; 111; 111; 38; 46; 10; 98; 97; 114]%N, Some (s [(SSym (s2l "safe_call")); (s [(SSym (s2l "call")); SNil; (SSym (s2l "foo"))]); (SSym (s2l "bar"))]));
  (1006, [102; 111; 111; 38; 10; 46; 98; 97; 114]%N, None);
  (1007, [102; 111; 111; 10; 38; 46; 98; 97; 114]%N, Some (s [(SSym (s2l "safe_call")); (s [(SSym (s2l "call")); SNil; (SSym (s2l "foo"))]); (SSym (s2l "bar"))]));
  (1008, (s2l "foo&.bar 1"), Some (s [(SSym (s2l "safe_call")); (s [(SSym (s2l "call")); SNil; (SSym (s2l "foo"))]); (SSym (s2l "bar")); (s [(SSym (s2l "lit")); (SInt (1))])]));
  (1009, (s2l "foo&.bar x"), Some (s [(SSym (s2l "safe_call")); (s [(SSym (s2l "call")); SNil; (SSym (s2l "foo"))]); (SSym (s2l "bar")); (s [(SSym (s2l "call")); SNil; (SSym (s2l "x"))])]));
  (1010, (s2l "foo&.> x"), Some (s [(SSym (s2l "safe_call")); (s [(SSym (s2l "call")); SNil; (SSym (s2l "foo"))]); (SSym (s2l ">")); (s [(SSym (s2l "call")); SNil; (SSym (s2l "x"))])]));
  (1011, (s2l "foo&.case x"), Some (s [(SSym (s2l "safe_call")); (s [(SSym (s2l "call")); SNil; (SSym (s2l "foo"))]); (SSym (s2l "case")); (s [(SSym (s2l "call")); SNil; (SSym (s2l "x"))])]));
  (1012, (s2l "foo&.()"), Some (s [(SSym (s2l "safe_call")); (s [(SSym (s2l "call")); SNil; (SSym (s2l "foo"))]); (SSym (s2l "call"))]));
  (1016, (s2l "foo.bar"), Some (s [(SSym (s2l "call")); (s [(SSym (s2l "call")); SNil; (SSym (s2l "foo"))]); (SSym (s2l "bar"))]));
  (1017, (s2l "foo.bar.baz"), Some (s [(SSym (s2l "call")); (s [(SSym (s2l "call")); (s [(SSym (s2l "call")); SNil; (SSym (s2l "foo"))]); (SSym (s2l "bar"))]); (SSym (s2l "baz"))]));
  (1018, (s2l "foo.bar 1, 2"), Some (s [(SSym (s2l "call")); (s [(SSym (s2l "call")); SNil; (SSym (s2l "foo"))]); (SSym (s2l "bar")); (s [(SSym (s2l "lit")); (SInt (1))]); (s [(SSym (s2l "lit")); (SInt (2))])]));
  (1019, (s2l "foo.bar(1, 2)"), Some (s [(SSym (s2l "call")); (s [(SSym (s2l "call")); SNil; (SSym (s2l "foo"))]); (SSym (s2l "bar")); (s [(SSym (s2l "lit")); (SInt (1))]); (s [(SSym (s2l "lit")); (SInt (2))])]));
  (1020, (s2l "foo.nil?"), Some (s [(SSym (s2l "call")); (s [(SSym (s2l "call")); SNil; (SSym (s2l "foo"))]); (SSym (s2l "nil?"))]));
  (1021, (s2l "foo.not?"), Some (s [(SSym (s2l "call")); (s [(SSym (s2l "call")); SNil; (SSym (s2l "foo"))]); (SSym (s2l "not?"))]));
  (1022, (s2l "foo.baz?"), Some (s [(SSym (s2l "call")); (s [(SSym (s2l "call")); SNil; (SSym (s2l "foo"))]); (SSym (s2l "baz?"))]));
  (1023, [102; 111; 111; 10; 32; 32; 46; 98; 97; 114; 10; 32; 32; 46; 98; 97; 122]%N, Some (s [(SSym (s2l "call")); (s [(SSym (s2l "call")); (s [(SSym (s2l "call")); SNil; (SSym (s2l "foo"))]); (SSym (s2l "bar"))]); (SSym (s2l "baz"))]));
  (1024, [102; 111; 111; 46; 10; 32; 32; 98; 97; 114; 46; 10; 32; 32; 98; 97; 122]%N, Some (s [(SSym (s2l "call")); (s [(SSym (s2l "call")); (s [(SSym (s2l "call")); SNil; (SSym (s2l "foo"))]); (SSym (s2l "bar"))]); (SSym (s2l "baz"))]));
  (1030, (s2l "self.+"), Some (s [(SSym (s2l "call")); (s [(SSym (s2l "self"))]); (SSym (s2l "+"))]));
  (1030, (s2l "self.-"), Some (s [(SSym (s2l "call")); (s [(SSym (s2l "self"))]); (SSym (s2l "-"))]));
  (1030, (s2l "self.*"), Some (s [(SSym (s2l "call")); (s [(SSym (s2l "self"))]); (SSym (s2l "*"))]));
  (1030, (s2l "self.**"), Some (s [(SSym (s2l "call")); (s [(SSym (s2l "self"))]); (SSym (s2l "**"))]));
  (1030, (s2l "self./"), Some (s [(SSym (s2l "call")); (s [(SSym (s2l "self"))]); (SSym (s2l "/"))]));
  (1030, (s2l "self.%"), Some (s [(SSym (s2l "call")); (s [(SSym (s2l "self"))]); (SSym (s2l "%"))]));
  (1030, (s2l "self.=="), Some (s [(SSym (s2l "call")); (s [(SSym (s2l "self"))]); (SSym (s2l "=="))]));
  (1030, (s2l "self.==="), Some (s [(SSym (s2l "call")); (s [(SSym (s2l "self"))]); (SSym (s2l "==="))]));
  (1030, (s2l "self.!="), Some (s [(SSym (s2l "call")); (s [(SSym (s2l "self"))]); (SSym (s2l "!="))]));
  (1030, (s2l "self.=~"), Some (s [(SSym (s2l "call")); (s [(SSym (s2l "self"))]); (SSym (s2l "=~"))]));
  (1030, (s2l "self.!~"), Some (s [(SSym (s2l "call")); (s [(SSym (s2l "self"))]); (SSym (s2l "!~"))]));
  (1030, (s2l "self.>"), Some (s [(SSym (s2l "call")); (s [(SSym (s2l "self"))]); (SSym (s2l ">"))]));
  (1030, (s2l "self.>="), Some (s [(SSym (s2l "call")); (s [(SSym (s2l "self"))]); (SSym (s2l ">="))]));
  (1030, (s2l "self.<"), Some (s [(SSym (s2l "call")); (s [(SSym (s2l "self"))]); (SSym (s2l "<"))]));
  (1030, (s2l "self.<="), Some (s [(SSym (s2l "call")); (s [(SSym (s2l "self"))]); (SSym (s2l "<="))]));
  (1030, (s2l "self.<=>"), Some (s [(SSym (s2l "call")); (s [(SSym (s2l "self"))]); (SSym (s2l "<=>"))]));
  (1030, (s2l "self.&"), Some (s [(SSym (s2l "call")); (s [(SSym (s2l "self"))]); (SSym (s2l "&"))]));
  (1030, (s2l "self.|"), Some (s [(SSym (s2l "call")); (s [(SSym (s2l "self"))]); (SSym (s2l "|"))]));
  (1030, (s2l "self.^"), Some (s [(SSym (s2l "call")); (s [(SSym (s2l "self"))]); (SSym (s2l "^"))]));
  (1030, (s2l "self.~"), Some (s [(SSym (s2l "call")); (s [(SSym (s2l "self"))]); (SSym (s2l "~"))]));
  (1030, (s2l "self.<<"), Some (s [(SSym (s2l "call")); (s [(SSym (s2l "self"))]); (SSym (s2l "<<"))]));
  (1030, (s2l "self.>>"), Some (s [(SSym (s2l "call")); (s [(SSym (s2l "self"))]); (SSym (s2l ">>"))]));
  (1030, (s2l "self.[]"), Some (s [(SSym (s2l "call")); (s [(SSym (s2l "self"))]); (SSym (s2l "[]"))]));
  (1030, (s2l "self.[]="), Some (s [(SSym (s2l "call")); (s [(SSym (s2l "self"))]); (SSym (s2l "[]="))]));
  (1078, (s2l "foo.alias(1)"), Some (s [(SSym (s2l "call")); (s [(SSym (s2l "call")); SNil; (SSym (s2l "foo"))]); (SSym (s2l "alias")); (s [(SSym (s2l "lit")); (SInt (1))])]));
  (1078, (s2l "foo.and(1)"), Some (s [(SSym (s2l "call")); (s [(SSym (s2l "call")); SNil; (SSym (s2l "foo"))]); (SSym (s2l "and")); (s [(SSym (s2l "lit")); (SInt (1))])]));
  (1078, (s2l "foo.begin(1)"), Some (s [(SSym (s2l "call")); (s [(SSym (s2l "call")); SNil; (SSym (s2l "foo"))]); (SSym (s2l "begin")); (s [(SSym (s2l "lit")); (SInt (1))])]));
  (1078, (s2l "foo.begin(1)"), Some (s [(SSym (s2l "call")); (s [(SSym (s2l "call")); SNil; (SSym (s2l "foo"))]); (SSym (s2l "begin")); (s [(SSym (s2l "lit")); (SInt (1))])]));
  (1078, (s2l "foo.break(1)"), Some (s [(SSym (s2l "call")); (s [(SSym (s2l "call")); SNil; (SSym (s2l "foo"))]); (SSym (s2l "break")); (s [(SSym (s2l "lit")); (SInt (1))])]));
  (1078, (s2l "foo.case(1)"), Some (s [(SSym (s2l "call")); (s [(SSym (s2l "call")); SNil; (SSym (s2l "foo"))]); (SSym (s2l "case")); (s [(SSym (s2l "lit")); (SInt (1))])]));
  (1078, (s2l "foo.class(1)"), Some (s [(SSym (s2l "call")); (s [(SSym (s2l "call")); SNil; (SSym (s2l "foo"))]); (SSym (s2l "class")); (s [(SSym (s2l "lit")); (SInt (1))])]))].
Example parser_test_4_passes : forallb passes parser_test_4 = true.
Proof. vm_compute. reflexivity. Qed.

(** /repo/test/parser_test.rb, lines 1078-1181. *)
Definition parser_test_5 : list (N * str * option sexp) := [
  (1078, (s2l "foo.defined(1)"), Some (s [(SSym (s2l "call")); (s [(SSym (s2l "call")); SNil; (SSym (s2l "foo"))]); (SSym (s2l "defined")); (s [(SSym (s2l "lit")); (SInt (1))])]));
  (1078, (s2l "foo.def(1)"), Some (s [(SSym (s2l "call")); (s [(SSym (s2l "call")); SNil; (SSym (s2l "foo"))]); (SSym (s2l "def")); (s [(SSym (s2l "lit")); (SInt (1))])]));
  (1078, (s2l "foo.do(1)"), Some (s [(SSym (s2l "call")); (s [(SSym (s2l "call")); SNil; (SSym (s2l "foo"))]); (SSym (s2l "do")); (s [(SSym (s2l "lit")); (SInt (1))])]));
  (1078, (s2l "foo.else(1)"), Some (s [(SSym (s2l "call")); (s [(SSym (s2l "call")); SNil; (SSym (s2l "foo"))]); (SSym (s2l "else")); (s [(SSym (s2l "lit")); (SInt (1))])]));
  (1078, (s2l "foo.elsif(1)"), Some (s [(SSym (s2l "call")); (s [(SSym (s2l "call")); SNil; (SSym (s2l "foo"))]); (SSym (s2l "elsif")); (s [(SSym (s2l "lit")); (SInt (1))])]));
  (1078, (s2l "foo.encoding(1)"), Some (s [(SSym (s2l "call")); (s [(SSym (s2l "call")); SNil; (SSym (s2l "foo"))]); (SSym (s2l "encoding")); (s [(SSym (s2l "lit")); (SInt (1))])]));
  (1078, (s2l "foo.end(1)"), Some (s [(SSym (s2l "call")); (s [(SSym (s2l "call")); SNil; (SSym (s2l "foo"))]); (SSym (s2l "end")); (s [(SSym (s2l "lit")); (SInt (1))])]));
  (1078, (s2l "foo.end(1)"), Some (s [(SSym (s2l "call")); (s [(SSym (s2l "call")); SNil; (SSym (s2l "foo"))]); (SSym (s2l "end")); (s [(SSym (s2l "lit")); (SInt (1))])]));
  (1078, (s2l "foo.ensure(1)"), Some (s [(SSym (s2l "call")); (s [(SSym (s2l "call")); SNil; (SSym (s2l "foo"))]); (SSym (s2l "ensure")); (s [(SSym (s2l "lit")); (SInt (1))])]));
  (1078, (s2l "foo.false(1)"), Some (s [(SSym (s2l "call")); (s [(SSym (s2l "call")); SNil; (SSym (s2l "foo"))]); (SSym (s2l "false")); (s [(SSym (s2l "lit")); (SInt (1))])]));
  (1078, (s2l "foo.file(1)"), Some (s [(SSym (s2l "call")); (s [(SSym (s2l "call")); SNil; (SSym (s2l "foo"))]); (SSym (s2l "file")); (s [(SSym (s2l "lit")); (SInt (1))])]));
  (1078, (s2l "foo.for(1)"), Some (s [(SSym (s2l "call")); (s [(SSym (s2l "call")); SNil; (SSym (s2l "foo"))]); (SSym (s2l "for")); (s [(SSym (s2l "lit")); (SInt (1))])]));
  (1078, (s2l "foo.if(1)"), Some (s [(SSym (s2l "call")); (s [(SSym (s2l "call")); SNil; (SSym (s2l "foo"))]); (SSym (s2l "if")); (s [(SSym (s2l "lit")); (SInt (1))])]));
  (1078, (s2l "foo.in(1)"), Some (s [(SSym (s2l "call")); (s [(SSym (s2l "call")); SNil; (SSym (s2l "foo"))]); (SSym (s2l "in")); (s [(SSym (s2l "lit")); (SInt (1))])]));
  (1078, (s2l "foo.line(1)"), Some (s [(SSym (s2l "call")); (s [(SSym (s2l "call")); SNil; (SSym (s2l "foo"))]); (SSym (s2l "line")); (s [(SSym (s2l "lit")); (SInt (1))])]));
  (1078, (s2l "foo.module(1)"), Some (s [(SSym (s2l "call")); (s [(SSym (s2l "call")); SNil; (SSym (s2l "foo"))]); (SSym (s2l "module")); (s [(SSym (s2l "lit")); (SInt (1))])]));
  (1078, (s2l "foo.next(1)"), Some (s [(SSym (s2l "call")); (s [(SSym (s2l "call")); SNil; (SSym (s2l "foo"))]); (SSym (s2l "next")); (s [(SSym (s2l "lit")); (SInt (1))])]));
  (1078, (s2l "foo.nil(1)"), Some (s [(SSym (s2l "call")); (s [(SSym (s2l "call")); SNil; (SSym (s2l "foo"))]); (SSym (s2l "nil")); (s [(SSym (s2l "lit")); (SInt (1))])]));
  (1078, (s2l "foo.not(1)"), Some (s [(SSym (s2l "call")); (s [(SSym (s2l "call")); SNil; (SSym (s2l "foo"))]); (SSym (s2l "not")); (s [(SSym (s2l "lit")); (SInt (1))])]));
  (1078, (s2l "foo.or(1)"), Some (s [(SSym (s2l "call")); (s [(SSym (s2l "call")); SNil; (SSym (s2l "foo"))]); (SSym (s2l "or")); (s [(SSym (s2l "lit")); (SInt (1))])]));
  (1078, (s2l "foo.redo(1)"), Some (s [(SSym (s2l "call")); (s [(SSym (s2l "call")); SNil; (SSym (s2l "foo"))]); (SSym (s2l "redo")); (s [(SSym (s2l "lit")); (SInt (1))])]));
  (1078, (s2l "foo.rescue(1)"), Some (s [(SSym (s2l "call")); (s [(SSym (s2l "call")); SNil; (SSym (s2l "foo"))]); (SSym (s2l "rescue")); (s [(SSym (s2l "lit")); (SInt (1))])]));
  (1078, (s2l "foo.retry(1)"), Some (s [(SSym (s2l "call")); (s [(SSym (s2l "call")); SNil; (SSym (s2l "foo"))]); (SSym (s2l "retry")); (s [(SSym (s2l "lit")); (SInt (1))])]));
  (1078, (s2l "foo.return(1)"), Some (s [(SSym (s2l "call")); (s [(SSym (s2l "call")); SNil; (SSym (s2l "foo"))]); (SSym (s2l "return")); (s [(SSym (s2l "lit")); (SInt (1))])]));
  (1078, (s2l "foo.self(1)"), Some (s [(SSym (s2l "call")); (s [(SSym (s2l "call")); SNil; (SSym (s2l "foo"))]); (SSym (s2l "self")); (s [(SSym (s2l "lit")); (SInt (1))])]));
  (1078, (s2l "foo.super(1)"), Some (s [(SSym (s2l "call")); (s [(SSym (s2l "call")); SNil; (SSym (s2l "foo"))]); (SSym (s2l "super")); (s [(SSym (s2l "lit")); (SInt (1))])]));
  (1078, (s2l "foo.then(1)"), Some (s [(SSym (s2l "call")); (s [(SSym (s2l "call")); SNil; (SSym (s2l "foo"))]); (SSym (s2l "then")); (s [(SSym (s2l "lit")); (SInt (1))])]));
  (1078, (s2l "foo.true(1)"), Some (s [(SSym (s2l "call")); (s [(SSym (s2l "call")); SNil; (SSym (s2l "foo"))]); (SSym (s2l "true")); (s [(SSym (s2l "lit")); (SInt (1))])]));
  (1078, (s2l "foo.undef(1)"), Some (s [(SSym (s2l "call")); (s [(SSym (s2l "call")); SNil; (SSym (s2l "foo"))]); (SSym (s2l "undef")); (s [(SSym (s2l "lit")); (SInt (1))])]));
  (1078, (s2l "foo.unless(1)"), Some (s [(SSym (s2l "call")); (s [(SSym (s2l "call")); SNil; (SSym (s2l "foo"))]); (SSym (s2l "unless")); (s [(SSym (s2l "lit")); (SInt (1))])]));
  (1078, (s2l "foo.until(1)"), Some (s [(SSym (s2l "call")); (s [(SSym (s2l "call")); SNil; (SSym (s2l "foo"))]); (SSym (s2l "until")); (s [(SSym (s2l "lit")); (SInt (1))])]));
  (1078, (s2l "foo.when(1)"), Some (s [(SSym (s2l "call")); (s [(SSym (s2l "call")); SNil; (SSym (s2l "foo"))]); (SSym (s2l "when")); (s [(SSym (s2l "lit")); (SInt (1))])]));
  (1078, (s2l "foo.while(1)"), Some (s [(SSym (s2l "call")); (s [(SSym (s2l "call")); SNil; (SSym (s2l "foo"))]); (SSym (s2l "while")); (s [(SSym (s2l "lit")); (SInt (1))])]));
  (1078, (s2l "foo.yield(1)"), Some (s [(SSym (s2l "call")); (s [(SSym (s2l "call")); SNil; (SSym (s2l "foo"))]); (SSym (s2l "yield")); (s [(SSym (s2l "lit")); (SInt (1))])]));
  (1079, (s2l "foo.alias 1 "), Some (s [(SSym (s2l "call")); (s [(SSym (s2l "call")); SNil; (SSym (s2l "foo"))]); (SSym (s2l "alias")); (s [(SSym (s2l "lit")); (SInt (1))])]));
  (1079, (s2l "foo.and 1 "), Some (s [(SSym (s2l "call")); (s [(SSym (s2l "call")); SNil; (SSym (s2l "foo"))]); (SSym (s2l "and")); (s [(SSym (s2l "lit")); (SInt (1))])]));
  (1079, (s2l "foo.begin 1 "), Some (s [(SSym (s2l "call")); (s [(SSym (s2l "call")); SNil; (SSym (s2l "foo"))]); (SSym (s2l "begin")); (s [(SSym (s2l "lit")); (SInt (1))])]));
  (1079, (s2l "foo.begin 1 "), Some (s [(SSym (s2l "call")); (s [(SSym (s2l "call")); SNil; (SSym (s2l "foo"))]); (SSym (s2l "begin")); (s [(SSym (s2l "lit")); (SInt (1))])]));
  (1079, (s2l "foo.break 1 "), Some (s [(SSym (s2l "call")); (s [(SSym (s2l "call")); SNil; (SSym (s2l "foo"))]); (SSym (s2l "break")); (s [(SSym (s2l "lit")); (SInt (1))])]));
  (1079, (s2l "foo.case 1 "), Some (s [(SSym (s2l "call")); (s [(SSym (s2l "call")); SNil; (SSym (s2l "foo"))]); (SSym (s2l "case")); (s [(SSym (s2l "lit")); (SInt (1))])]));
  (1079, (s2l "foo.class 1 "), Some (s [(SSym (s2l "call")); (s [(SSym (s2l "call")); SNil; (SSym (s2l "foo"))]); (SSym (s2l "class")); (s [(SSym (s2l "lit")); (SInt (1))])]));
  (1079, (s2l "foo.defined 1 "), Some (s [(SSym (s2l "call")); (s [(SSym (s2l "call")); SNil; (SSym (s2l "foo"))]); (SSym (s2l "defined")); (s [(SSym (s2l "lit")); (SInt (1))])]));
  (1079, (s2l "foo.def 1 "), Some (s [(SSym (s2l "call")); (s [(SSym (s2l "call")); SNil; (SSym (s2l "foo"))]); (SSym (s2l "def")); (s [(SSym (s2l "lit")); (SInt (1))])]));
  (1079, (s2l "foo.do 1 "), Some (s [(SSym (s2l "call")); (s [(SSym (s2l "call")); SNil; (SSym (s2l "foo"))]); (SSym (s2l "do")); (s [(SSym (s2l "lit")); (SInt (1))])]));
  (1079, (s2l "foo.else 1 "), Some (s [(SSym (s2l "call")); (s [(SSym (s2l "call")); SNil; (SSym (s2l "foo"))]); (SSym (s2l "else")); (s [(SSym (s2l "lit")); (SInt (1))])]));
  (1079, (s2l "foo.elsif 1 "), Some (s [(SSym (s2l "call")); (s [(SSym (s2l "call")); SNil; (SSym (s2l "foo"))]); (SSym (s2l "elsif")); (s [(SSym (s2l "lit")); (SInt (1))])]));
  (1079, (s2l "foo.encoding 1 "), Some (s [(SSym (s2l "call")); (s [(SSym (s2l "call")); SNil; (SSym (s2l "foo"))]); (SSym (s2l "encoding")); (s [(SSym (s2l "lit")); (SInt (1))])]));
  (1079, (s2l "foo.end 1 "), Some (s [(SSym (s2l "call")); (s [(SSym (s2l "call")); SNil; (SSym (s2l "foo"))]); (SSym (s2l "end")); (s [(SSym (s2l "lit")); (SInt (1))])]));
  (1079, (s2l "foo.end 1 "), Some (s [(SSym (s2l "call")); (s [(SSym (s2l "call")); SNil; (SSym (s2l "foo"))]); (SSym (s2l "end")); (s [(SSym (s2l "lit")); (SInt (1))])]));
  (1079, (s2l "foo.ensure 1 "), Some (s [(SSym (s2l "call")); (s [(SSym (s2l "call")); SNil; (SSym (s2l "foo"))]); (SSym (s2l "ensure")); (s [(SSym (s2l "lit")); (SInt (1))])]));
  (1079, (s2l "foo.false 1 "), Some (s [(SSym (s2l "call")); (s [(SSym (s2l "call")); SNil; (SSym (s2l "foo"))]); (SSym (s2l "false")); (s [(SSym (s2l "lit")); (SInt (1))])]));
  (1079, (s2l "foo.file 1 "), Some (s [(SSym (s2l "call")); (s [(SSym (s2l "call")); SNil; (SSym (s2l "foo"))]); (SSym (s2l "file")); (s [(SSym (s2l "lit")); (SInt (1))])]));
  (1079, (s2l "foo.for 1 "), Some (s [(SSym (s2l "call")); (s [(SSym (s2l "call")); SNil; (SSym (s2l "foo"))]); (SSym (s2l "for")); (s [(SSym (s2l "lit")); (SInt (1))])]));
  (1079, (s2l "foo.if 1 "), Some (s [(SSym (s2l "call")); (s [(SSym (s2l "call")); SNil; (SSym (s2l "foo"))]); (SSym (s2l "if")); (s [(SSym (s2l "lit")); (SInt (1))])]));
  (1079, (s2l "foo.in 1 "), Some (s [(SSym (s2l "call")); (s [(SSym (s2l "call")); SNil; (SSym (s2l "foo"))]); (SSym (s2l "in")); (s [(SSym (s2l "lit")); (SInt (1))])]));
  (1079, (s2l "foo.line 1 "), Some (s [(SSym (s2l "call")); (s [(SSym (s2l "call")); SNil; (SSym (s2l "foo"))]); (SSym (s2l "line")); (s [(SSym (s2l "lit")); (SInt (1))])]));
  (1079, (s2l "foo.module 1 "), Some (s [(SSym (s2l "call")); (s [(SSym (s2l "call")); SNil; (SSym (s2l "foo"))]); (SSym (s2l "module")); (s [(SSym (s2l "lit")); (SInt (1))])]));
  (1079, (s2l "foo.next 1 "), Some (s [(SSym (s2l "call")); (s [(SSym (s2l "call")); SNil; (SSym (s2l "foo"))]); (SSym (s2l "next")); (s [(SSym (s2l "lit")); (SInt (1))])]));
  (1079, (s2l "foo.nil 1 "), Some (s [(SSym (s2l "call")); (s [(SSym (s2l "call")); SNil; (SSym (s2l "foo"))]); (SSym (s2l "nil")); (s [(SSym (s2l "lit")); (SInt (1))])]));
  (1079, (s2l "foo.not 1 "), Some (s [(SSym (s2l "call")); (s [(SSym (s2l "call")); SNil; (SSym (s2l "foo"))]); (SSym (s2l "not")); (s [(SSym (s2l "lit")); (SInt (1))])]));
  (1079, (s2l "foo.or 1 "), Some (s [(SSym (s2l "call")); (s [(SSym (s2l "call")); SNil; (SSym (s2l "foo"))]); (SSym (s2l "or")); (s [(SSym (s2l "lit")); (SInt (1))])]));
  (1079, (s2l "foo.redo 1 "), Some (s [(SSym (s2l "call")); (s [(SSym (s2l "call")); SNil; (SSym (s2l "foo"))]); (SSym (s2l "redo")); (s [(SSym (s2l "lit")); (SInt (1))])]));
  (1079, (s2l "foo.rescue 1 "), Some (s [(SSym (s2l "call")); (s [(SSym (s2l "call")); SNil; (SSym (s2l "foo"))]); (SSym (s2l "rescue")); (s [(SSym (s2l "lit")); (SInt (1))])]));
  (1079, (s2l "foo.retry 1 "), Some (s [(SSym (s2l "call")); (s [(SSym (s2l "call")); SNil; (SSym (s2l "foo"))]); (SSym (s2l "retry")); (s [(SSym (s2l "lit")); (SInt (1))])]));
  (1079, (s2l "foo.return 1 "), Some (s [(SSym (s2l "call")); (s [(SSym (s2l "call")); SNil; (SSym (s2l "foo"))]); (SSym (s2l "return")); (s [(SSym (s2l "lit")); (SInt (1))])]));
  (1079, (s2l "foo.self 1 "), Some (s [(SSym (s2l "call")); (s [(SSym (s2l "call")); SNil; (SSym (s2l "foo"))]); (SSym (s2l "self")); (s [(SSym (s2l "lit")); (SInt (1))])]));
  (1079, (s2l "foo.super 1 "), Some (s [(SSym (s2l "call")); (s [(SSym (s2l "call")); SNil; (SSym (s2l "foo"))]); (SSym (s2l "super")); (s [(SSym (s2l "lit")); (SInt (1))])]));
  (1079, (s2l "foo.then 1 "), Some (s [(SSym (s2l "call")); (s [(SSym (s2l "call")); SNil; (SSym (s2l "foo"))]); (SSym (s2l "then")); (s [(SSym (s2l "lit")); (SInt (1))])]));
  (1079, (s2l "foo.true 1 "), Some (s [(SSym (s2l "call")); (s [(SSym (s2l "call")); SNil; (SSym (s2l "foo"))]); (SSym (s2l "true")); (s [(SSym (s2l "lit")); (SInt (1))])]));
  (1079, (s2l "foo.undef 1 "), Some (s [(SSym (s2l "call")); (s [(SSym (s2l "call")); SNil; (SSym (s2l "foo"))]); (SSym (s2l "undef")); (s [(SSym (s2l "lit")); (SInt (1))])]));
  (1079, (s2l "foo.unless 1 "), Some (s [(SSym (s2l "call")); (s [(SSym (s2l "call")); SNil; (SSym (s2l "foo"))]); (SSym (s2l "unless")); (s [(SSym (s2l "lit")); (SInt (1))])]));
  (1079, (s2l "foo.until 1 "), Some (s [(SSym (s2l "call")); (s [(SSym (s2l "call")); SNil; (SSym (s2l "foo"))]); (SSym (s2l "until")); (s [(SSym (s2l "lit")); (SInt (1))])]));
  (1079, (s2l "foo.when 1 "), Some (s [(SSym (s2l "call")); (s [(SSym (s2l "call")); SNil; (SSym (s2l "foo"))]); (SSym (s2l "when")); (s [(SSym (s2l "lit")); (SInt (1))])]));
  (1079, (s2l "foo.while 1 "), Some (s [(SSym (s2l "call")); (s [(SSym (s2l "call")); SNil; (SSym (s2l "foo"))]); (SSym (s2l "while")); (s [(SSym (s2l "lit")); (SInt (1))])]));
  (1079, (s2l "foo.yield 1 "), Some (s [(SSym (s2l "call")); (s [(SSym (s2l "call")); SNil; (SSym (s2l "foo"))]); (SSym (s2l "yield")); (s [(SSym (s2l "lit")); (SInt (1))])]));
  (1085, (s2l "foo 1, { a: 'b' }"), Some (s [(SSym (s2l "call")); SNil; (SSym (s2l "foo")); (s [(SSym (s2l "lit")); (SInt (1))]); (s [(SSym (s2l "hash")); (s [(SSym (s2l "lit")); (SSym (s2l "a"))]); (s [(SSym (s2l "str")); (SStr (s2l "b"))])])]));
  (1086, (s2l "foo(1, { a: 'b' })"), Some (s [(SSym (s2l "call")); SNil; (SSym (s2l "foo")); (s [(SSym (s2l "lit")); (SInt (1))]); (s [(SSym (s2l "hash")); (s [(SSym (s2l "lit")); (SSym (s2l "a"))]); (s [(SSym (s2l "str")); (SStr (s2l "b"))])])]));
  (1087, (s2l "foo 1, { :a => 'b' }"), Some (s [(SSym (s2l "call")); SNil; (SSym (s2l "foo")); (s [(SSym (s2l "lit")); (SInt (1))]); (s [(SSym (s2l "hash")); (s [(SSym (s2l "lit")); (SSym (s2l "a"))]); (s [(SSym (s2l "str")); (SStr (s2l "b"))])])]));
  (1088, (s2l "foo(1, { :a => 'b' })"), Some (s [(SSym (s2l "call")); SNil; (SSym (s2l "foo")); (s [(SSym (s2l "lit")); (SInt (1))]); (s [(SSym (s2l "hash")); (s [(SSym (s2l "lit")); (SSym (s2l "a"))]); (s [(SSym (s2l "str")); (SStr (s2l "b"))])])]));
  (1090, (s2l "foo 1, a: 'b'"), Some (s [(SSym (s2l "call")); SNil; (SSym (s2l "foo")); (s [(SSym (s2l "lit")); (SInt (1))]); (s [(SSym (s2l "bare_hash")); (s [(SSym (s2l "lit")); (SSym (s2l "a"))]); (s [(SSym (s2l "str")); (SStr (s2l "b"))])])]));
  (1091, (s2l "foo(1, a: 'b')"), Some (s [(SSym (s2l "call")); SNil; (SSym (s2l "foo")); (s [(SSym (s2l "lit")); (SInt (1))]); (s [(SSym (s2l "bare_hash")); (s [(SSym (s2l "lit")); (SSym (s2l "a"))]); (s [(SSym (s2l "str")); (SStr (s2l "b"))])])]));
  (1092, (s2l "foo 1, :a => 'b'"), Some (s [(SSym (s2l "call")); SNil; (SSym (s2l "foo")); (s [(SSym (s2l "lit")); (SInt (1))]); (s [(SSym (s2l "bare_hash")); (s [(SSym (s2l "lit")); (SSym (s2l "a"))]); (s [(SSym (s2l "str")); (SStr (s2l "b"))])])]));
  (1093, (s2l "foo(1, :a => 'b')"), Some (s [(SSym (s2l "call")); SNil; (SSym (s2l "foo")); (s [(SSym (s2l "lit")); (SInt (1))]); (s [(SSym (s2l "bare_hash")); (s [(SSym (s2l "lit")); (SSym (s2l "a"))]); (s [(SSym (s2l "str")); (SStr (s2l "b"))])])]));
  (1097, (s2l "1 ? 2 : 3"), Some (s [(SSym (s2l "if")); (s [(SSym (s2l "lit")); (SInt (1))]); (s [(SSym (s2l "lit")); (SInt (2))]); (s [(SSym (s2l "lit")); (SInt (3))])]));
  (1098, [102; 111; 111; 32; 63; 10; 98; 97; 114; 32; 43; 32; 98; 97; 122; 10; 32; 58; 10; 32; 98; 117; 122; 32; 47; 32; 50]%N, Some (s [(SSym (s2l "if")); (s [(SSym (s2l "call")); SNil; (SSym (s2l "foo"))]); (s [(SSym (s2l "call")); (s [(SSym (s2l "call")); SNil; (SSym (s2l "bar"))]); (SSym (s2l "+")); (s [(SSym (s2l "call")); SNil; (SSym (s2l "baz"))])]); (s [(SSym (s2l "call")); (s [(SSym (s2l "call")); SNil; (SSym (s2l "buz"))]); (SSym (s2l "/")); (s [(SSym (s2l "lit")); (SInt (2))])])]));
  (1099, (s2l "1 ? 2 : map { |n| n }"), Some (s [(SSym (s2l "if")); (s [(SSym (s2l "lit")); (SInt (1))]); (s [(SSym (s2l "lit")); (SInt (2))]); (s [(SSym (s2l "iter")); (s [(SSym (s2l "call")); SNil; (SSym (s2l "map"))]); (s [(SSym (s2l "args")); (SSym (s2l "n"))]); (s [(SSym (s2l "lvar")); (SSym (s2l "n"))])])]));
  (1100, [49; 32; 63; 32; 50; 32; 58; 32; 109; 97; 112; 32; 100; 111; 32; 124; 110; 124; 10; 110; 10; 101; 110; 100]%N, Some (s [(SSym (s2l "if")); (s [(SSym (s2l "lit")); (SInt (1))]); (s [(SSym (s2l "lit")); (SInt (2))]); (s [(SSym (s2l "iter")); (s [(SSym (s2l "call")); SNil; (SSym (s2l "map"))]); (s [(SSym (s2l "args")); (SSym (s2l "n"))]); (s [(SSym (s2l "lvar")); (SSym (s2l "n"))])])]));
  (1101, (s2l "fib(num ? num.to_i : 25)"), Some (s [(SSym (s2l "call")); SNil; (SSym (s2l "fib")); (s [(SSym (s2l "if")); (s [(SSym (s2l "call")); SNil; (SSym (s2l "num"))]); (s [(SSym (s2l "call")); (s [(SSym (s2l "call")); SNil; (SSym (s2l "num"))]); (SSym (s2l "to_i"))]); (s [(SSym (s2l "lit")); (SInt (25))])])]));
  (1102, (s2l "foo x < 1 ? x : y"), Some (s [(SSym (s2l "call")); SNil; (SSym (s2l "foo")); (s [(SSym (s2l "if")); (s [(SSym (s2l "call")); (s [(SSym (s2l "call")); SNil; (SSym (s2l "x"))]); (SSym (s2l "<")); (s [(SSym (s2l "lit")); (SInt (1))])]); (s [(SSym (s2l "call")); SNil; (SSym (s2l "x"))]); (s [(SSym (s2l "call")); SNil; (SSym (s2l "y"))])])]));
  (1103, (s2l "return x < 1 ? x : y"), Some (s [(SSym (s2l "return")); (s [(SSym (s2l "if")); (s [(SSym (s2l "call")); (s [(SSym (s2l "call")); SNil; (SSym (s2l "x"))]); (SSym (s2l "<")); (s [(SSym (s2l "lit")); (SInt (1))])]); (s [(SSym (s2l "call")); SNil; (SSym (s2l "x"))]); (s [(SSym (s2l "call")); SNil; (SSym (s2l "y"))])])]));
  (1104, (s2l "foo ? bar = 1 : 2"), Some (s [(SSym (s2l "if")); (s [(SSym (s2l "call")); SNil; (SSym (s2l "foo"))]); (s [(SSym (s2l "lasgn")); (SSym (s2l "bar")); (s [(SSym (s2l "lit")); (SInt (1))])]); (s [(SSym (s2l "lit")); (SInt (2))])]));
  (1105, (s2l "foo ? 1 : bar = 2"), Some (s [(SSym (s2l "if")); (s [(SSym (s2l "call")); SNil; (SSym (s2l "foo"))]); (s [(SSym (s2l "lit")); (SInt (1))]); (s [(SSym (s2l "lasgn")); (SSym (s2l "bar")); (s [(SSym (s2l "lit")); (SInt (2))])])]));
  (1106, (s2l "foo ? 'bar' : 'baz'"), Some (s [(SSym (s2l "if")); (s [(SSym (s2l "call")); SNil; (SSym (s2l "foo"))]); (s [(SSym (s2l "str")); (SStr (s2l "bar"))]); (s [(SSym (s2l "str")); (SStr (s2l "baz"))])]));
  (1107, (s2l "foo && bar && baz ? 1 : 2"), Some (s [(SSym (s2l "if")); (s [(SSym (s2l "and")); (s [(SSym (s2l "call")); SNil; (SSym (s2l "foo"))]); (s [(SSym (s2l "and")); (s [(SSym (s2l "call")); SNil; (SSym (s2l "bar"))]); (s [(SSym (s2l "call")); SNil; (SSym (s2l "baz"))])])]); (s [(SSym (s2l "lit")); (SInt (1))]); (s [(SSym (s2l "lit")); (SInt (2))])]));
  (1108, (s2l "a ? '': b"), Some (s [(SSym (s2l "if")); (s [(SSym (s2l "call")); SNil; (SSym (s2l "a"))]); (s [(SSym (s2l "str")); (SStr (s2l ""))]); (s [(SSym (s2l "call")); SNil; (SSym (s2l "b"))])]));
  (1109, (s2l "a ? """": b"), Some (s [(SSym (s2l "if")); (s [(SSym (s2l "call")); SNil; (SSym (s2l "a"))]); (s [(SSym (s2l "str")); (SStr (s2l ""))]); (s [(SSym (s2l "call")); SNil; (SSym (s2l "b"))])]));
  (1110, (s2l "a=b ? true: false"), Some (s [(SSym (s2l "lasgn")); (SSym (s2l "a")); (s [(SSym (s2l "if")); (s [(SSym (s2l "call")); SNil; (SSym (s2l "b"))]); (s [(SSym (s2l "true"))]); (s [(SSym (s2l "false"))])])]));
  (1114, (s2l "if true; end"), Some (s [(SSym (s2l "if")); (s [(SSym (s2l "true"))]); SNil; SNil]));
  (1115, (s2l "if true; 1; end"), Some (s [(SSym (s2l "if")); (s [(SSym (s2l "true"))]); (s [(SSym (s2l "lit")); (SInt (1))]); SNil]));
  (1116, (s2l "if true; 1; 2; end"), Some (s [(SSym (s2l "if")); (s [(SSym (s2l "true"))]); (s [(SSym (s2l "block")); (s [(SSym (s2l "lit")); (SInt (1))]); (s [(SSym (s2l "lit")); (SInt (2))])]); SNil]));
  (1117, (s2l "if false; 1; else; 2; end"), Some (s [(SSym (s2l "if")); (s [(SSym (s2l "false"))]); (s [(SSym (s2l "lit")); (SInt (1))]); (s [(SSym (s2l "lit")); (SInt (2))])]));
  (1118, (s2l "if false; 1; elsif 1 + 1 == 2; 2; else; 3; end"), Some (s [(SSym (s2l "if")); (s [(SSym (s2l "false"))]); (s [(SSym (s2l "lit")); (SInt (1))]); (s [(SSym (s2l "if")); (s [(SSym (s2l "call")); (s [(SSym (s2l "call")); (s [(SSym (s2l "lit")); (SInt (1))]); (SSym (s2l "+")); (s [(SSym (s2l "lit")); (SInt (1))])]); (SSym (s2l "==")); (s [(SSym (s2l "lit")); (SInt (2))])]); (s [(SSym (s2l "lit")); (SInt (2))]); (s [(SSym (s2l "lit")); (SInt (3))])])]));
  (1119, (s2l "if false; 1; elsif 1 + 1 == 0; 2; 3; elsif false; 4; elsif foo() == 'bar'; 5; 6; else; 7; end"), Some (s [(SSym (s2l "if")); (s [(SSym (s2l "false"))]); (s [(SSym (s2l "lit")); (SInt (1))]); (s [(SSym (s2l "if")); (s [(SSym (s2l "call")); (s [(SSym (s2l "call")); (s [(SSym (s2l "lit")); (SInt (1))]); (SSym (s2l "+")); (s [(SSym (s2l "lit")); (SInt (1))])]); (SSym (s2l "==")); (s [(SSym (s2l "lit")); (SInt (0))])]); (s [(SSym (s2l "block")); (s [(SSym (s2l "lit")); (SInt (2))]); (s [(SSym (s2l "lit")); (SInt (3))])]); (s [(SSym (s2l "if")); (s [(SSym (s2l "false"))]); (s [(SSym (s2l "lit")); (SInt (4))]); (s [(SSym (s2l "if")); (s [(SSym (s2l "call")); (s [(SSym (s2l "call")); SNil; (SSym (s2l "foo"))]); (SSym (s2l "==")); (s [(SSym (s2l "str")); (SStr (s2l "bar"))])]); (s [(SSym (s2l "block")); (s [(SSym (s2l "lit")); (SInt (5))]); (s [(SSym (s2l "lit")); (SInt (6))])]); (s [(SSym (s2l "lit")); (SInt (7))])])])])]));
  (1120, [105; 102; 32; 116; 114; 117; 101; 32; 116; 104; 101; 110; 32; 39; 102; 111; 111; 39; 10; 101; 110; 100]%N, Some (s [(SSym (s2l "if")); (s [(SSym (s2l "true"))]); (s [(SSym (s2l "str")); (SStr (s2l "foo"))]); SNil]));
  (1121, [105; 102; 32; 116; 114; 117; 101; 32; 116; 104; 101; 110; 32; 39; 102; 111; 111; 39; 32; 101; 108; 115; 101; 32; 39; 98; 97; 114; 39; 10; 101; 110; 100]%N, Some (s [(SSym (s2l "if")); (s [(SSym (s2l "true"))]); (s [(SSym (s2l "str")); (SStr (s2l "foo"))]); (s [(SSym (s2l "str")); (SStr (s2l "bar"))])]));
  (1125, (s2l "unless false; 1; else; 2; end"), Some (s [(SSym (s2l "if")); (s [(SSym (s2l "false"))]); (s [(SSym (s2l "lit")); (SInt (2))]); (s [(SSym (s2l "lit")); (SInt (1))])]));
  (1126, [117; 110; 108; 101; 115; 115; 32; 116; 114; 117; 101; 32; 116; 104; 101; 110; 32; 39; 102; 111; 111; 39; 10; 101; 110; 100]%N, Some (s [(SSym (s2l "if")); (s [(SSym (s2l "true"))]); SNil; (s [(SSym (s2l "str")); (SStr (s2l "foo"))])]));
  (1127, [117; 110; 108; 101; 115; 115; 32; 116; 114; 117; 101; 32; 116; 104; 101; 110; 32; 39; 102; 111; 111; 39; 32; 101; 108; 115; 101; 32; 39; 98; 97; 114; 39; 10; 101; 110; 100]%N, Some (s [(SSym (s2l "if")); (s [(SSym (s2l "true"))]); (s [(SSym (s2l "str")); (SStr (s2l "bar"))]); (s [(SSym (s2l "str")); (SStr (s2l "foo"))])]));
  (1131, (s2l "while true; end"), Some (s [(SSym (s2l "while")); (s [(SSym (s2l "true"))]); SNil; STrue]));
  (1132, (s2l "while true; 1; end"), Some (s [(SSym (s2l "while")); (s [(SSym (s2l "true"))]); (s [(SSym (s2l "lit")); (SInt (1))]); STrue]));
  (1133, (s2l "while true do end"), Some (s [(SSym (s2l "while")); (s [(SSym (s2l "true"))]); SNil; STrue]));
  (1134, (s2l "while true do 1; end"), Some (s [(SSym (s2l "while")); (s [(SSym (s2l "true"))]); (s [(SSym (s2l "lit")); (SInt (1))]); STrue]));
  (1135, (s2l "while true; 1; 2; end"), Some (s [(SSym (s2l "while")); (s [(SSym (s2l "true"))]); (s [(SSym (s2l "block")); (s [(SSym (s2l "lit")); (SInt (1))]); (s [(SSym (s2l "lit")); (SInt (2))])]); STrue]));
  (1136, (s2l "until true; end"), Some (s [(SSym (s2l "until")); (s [(SSym (s2l "true"))]); SNil; STrue]));
  (1137, (s2l "until true; 1; end"), Some (s [(SSym (s2l "until")); (s [(SSym (s2l "true"))]); (s [(SSym (s2l "lit")); (SInt (1))]); STrue]));
  (1138, (s2l "until true do end"), Some (s [(SSym (s2l "until")); (s [(SSym (s2l "true"))]); SNil; STrue]));
  (1139, (s2l "until true do 1; end"), Some (s [(SSym (s2l "until")); (s [(SSym (s2l "true"))]); (s [(SSym (s2l "lit")); (SInt (1))]); STrue]));
  (1140, (s2l "until true; 1; 2; end"), Some (s [(SSym (s2l "until")); (s [(SSym (s2l "true"))]); (s [(SSym (s2l "block")); (s [(SSym (s2l "lit")); (SInt (1))]); (s [(SSym (s2l "lit")); (SInt (2))])]); STrue]));
  (1141, (s2l "foo while true"), Some (s [(SSym (s2l "while")); (s [(SSym (s2l "true"))]); (s [(SSym (s2l "call")); SNil; (SSym (s2l "foo"))]); STrue]));
  (1142, (s2l "begin; foo; end while true"), Some (s [(SSym (s2l "while")); (s [(SSym (s2l "true"))]); (s [(SSym (s2l "call")); SNil; (SSym (s2l "foo"))]); SFalse]));
  (1143, (s2l "1 while true"), Some (s [(SSym (s2l "while")); (s [(SSym (s2l "true"))]); (s [(SSym (s2l "lit")); (SInt (1))]); STrue]));
  (1144, (s2l "begin; 1; end while true"), Some (s [(SSym (s2l "while")); (s [(SSym (s2l "true"))]); (s [(SSym (s2l "lit")); (SInt (1))]); SFalse]));
  (1145, (s2l "begin; 1; 2; end while true"), Some (s [(SSym (s2l "while")); (s [(SSym (s2l "true"))]); (s [(SSym (s2l "block")); (s [(SSym (s2l "lit")); (SInt (1))]); (s [(SSym (s2l "lit")); (SInt (2))])]); SFalse]));
  (1146, (s2l "begin; 1; rescue; 2; end while true"), Some (s [(SSym (s2l "while")); (s [(SSym (s2l "true"))]); (s [(SSym (s2l "rescue")); (s [(SSym (s2l "lit")); (SInt (1))]); (s [(SSym (s2l "resbody")); (s [(SSym (s2l "array"))]); (s [(SSym (s2l "lit")); (SInt (2))])])]); SFalse]));
  (1147, (s2l "begin; 1; ensure; 2; end while true"), Some (s [(SSym (s2l "while")); (s [(SSym (s2l "true"))]); (s [(SSym (s2l "ensure")); (s [(SSym (s2l "lit")); (SInt (1))]); (s [(SSym (s2l "lit")); (SInt (2))])]); SFalse]));
  (1148, (s2l "begin; 1; end until true"), Some (s [(SSym (s2l "until")); (s [(SSym (s2l "true"))]); (s [(SSym (s2l "lit")); (SInt (1))]); SFalse]));
  (1149, (s2l "begin; 1; 2; end until true"), Some (s [(SSym (s2l "until")); (s [(SSym (s2l "true"))]); (s [(SSym (s2l "block")); (s [(SSym (s2l "lit")); (SInt (1))]); (s [(SSym (s2l "lit")); (SInt (2))])]); SFalse]));
  (1150, (s2l "begin; 1; rescue; 2; end until true"), Some (s [(SSym (s2l "until")); (s [(SSym (s2l "true"))]); (s [(SSym (s2l "rescue")); (s [(SSym (s2l "lit")); (SInt (1))]); (s [(SSym (s2l "resbody")); (s [(SSym (s2l "array"))]); (s [(SSym (s2l "lit")); (SInt (2))])])]); SFalse]));
  (1151, (s2l "begin; 1; ensure; 2; end until true"), Some (s [(SSym (s2l "until")); (s [(SSym (s2l "true"))]); (s [(SSym (s2l "ensure")); (s [(SSym (s2l "lit")); (SInt (1))]); (s [(SSym (s2l "lit")); (SInt (2))])]); SFalse]));
  (1152, (s2l "x = 10; x -= 1 until x.zero?"), Some (s [(SSym (s2l "block")); (s [(SSym (s2l "lasgn")); (SSym (s2l "x")); (s [(SSym (s2l "lit")); (SInt (10))])]); (s [(SSym (s2l "until")); (s [(SSym (s2l "call")); (s [(SSym (s2l "lvar")); (SSym (s2l "x"))]); (SSym (s2l "zero?"))]); (s [(SSym (s2l "lasgn")); (SSym (s2l "x")); (s [(SSym (s2l "call")); (s [(SSym (s2l "lvar")); (SSym (s2l "x"))]); (SSym (s2l "-")); (s [(SSym (s2l "lit")); (SInt (1))])])]); STrue])]));
  (1153, (s2l "x = 10; x -= 1 while x.positive?"), Some (s [(SSym (s2l "block")); (s [(SSym (s2l "lasgn")); (SSym (s2l "x")); (s [(SSym (s2l "lit")); (SInt (10))])]); (s [(SSym (s2l "while")); (s [(SSym (s2l "call")); (s [(SSym (s2l "lvar")); (SSym (s2l "x"))]); (SSym (s2l "positive?"))]); (s [(SSym (s2l "lasgn")); (SSym (s2l "x")); (s [(SSym (s2l "call")); (s [(SSym (s2l "lvar")); (SSym (s2l "x"))]); (SSym (s2l "-")); (s [(SSym (s2l "lit")); (SInt (1))])])]); STrue])]));
  (1157, (s2l "for foo in bar; end"), Some (s [(SSym (s2l "for")); (s [(SSym (s2l "call")); SNil; (SSym (s2l "bar"))]); (s [(SSym (s2l "lasgn")); (SSym (s2l "foo"))])]));
  (1158, (s2l "for foo in bar; foo; end"), Some (s [(SSym (s2l "for")); (s [(SSym (s2l "call")); SNil; (SSym (s2l "bar"))]); (s [(SSym (s2l "lasgn")); (SSym (s2l "foo"))]); (s [(SSym (s2l "lvar")); (SSym (s2l "foo"))])]));
  (1159, (s2l "for *foo in bar; end"), Some (s [(SSym (s2l "for")); (s [(SSym (s2l "call")); SNil; (SSym (s2l "bar"))]); (s [(SSym (s2l "masgn")); (s [(SSym (s2l "array")); (s [(SSym (s2l "splat")); (s [(SSym (s2l "lasgn")); (SSym (s2l "foo"))])])])])]));
  (1160, (s2l "for foo in bar; 1; end"), Some (s [(SSym (s2l "for")); (s [(SSym (s2l "call")); SNil; (SSym (s2l "bar"))]); (s [(SSym (s2l "lasgn")); (SSym (s2l "foo"))]); (s [(SSym (s2l "lit")); (SInt (1))])]));
  (1161, (s2l "for foo in bar do end"), Some (s [(SSym (s2l "for")); (s [(SSym (s2l "call")); SNil; (SSym (s2l "bar"))]); (s [(SSym (s2l "lasgn")); (SSym (s2l "foo"))])]));
  (1162, (s2l "for foo in bar do 1; end"), Some (s [(SSym (s2l "for")); (s [(SSym (s2l "call")); SNil; (SSym (s2l "bar"))]); (s [(SSym (s2l "lasgn")); (SSym (s2l "foo"))]); (s [(SSym (s2l "lit")); (SInt (1))])]));
  (1163, (s2l "for foo in bar do; end"), Some (s [(SSym (s2l "for")); (s [(SSym (s2l "call")); SNil; (SSym (s2l "bar"))]); (s [(SSym (s2l "lasgn")); (SSym (s2l "foo"))])]));
  (1164, [102; 111; 114; 32; 102; 111; 111; 32; 105; 110; 32; 98; 97; 114; 32; 100; 111; 10; 101; 110; 100]%N, Some (s [(SSym (s2l "for")); (s [(SSym (s2l "call")); SNil; (SSym (s2l "bar"))]); (s [(SSym (s2l "lasgn")); (SSym (s2l "foo"))])]));
  (1165, [102; 111; 114; 32; 102; 111; 111; 32; 105; 110; 32; 49; 46; 46; 46; 104; 101; 105; 103; 104; 116; 32; 100; 111; 10; 101; 110; 100]%N, Some (s [(SSym (s2l "for")); (s [(SSym (s2l "dot3")); (s [(SSym (s2l "lit")); (SInt (1))]); (s [(SSym (s2l "call")); SNil; (SSym (s2l "height"))])]); (s [(SSym (s2l "lasgn")); (SSym (s2l "foo"))])]));
  (1166, (s2l "for a, b in c; end"), Some (s [(SSym (s2l "for")); (s [(SSym (s2l "call")); SNil; (SSym (s2l "c"))]); (s [(SSym (s2l "masgn")); (s [(SSym (s2l "array")); (s [(SSym (s2l "lasgn")); (SSym (s2l "a"))]); (s [(SSym (s2l "lasgn")); (SSym (s2l "b"))])])])]));
  (1167, (s2l "for a, b, in c; end"), Some (s [(SSym (s2l "for")); (s [(SSym (s2l "call")); SNil; (SSym (s2l "c"))]); (s [(SSym (s2l "masgn")); (s [(SSym (s2l "array")); (s [(SSym (s2l "lasgn")); (SSym (s2l "a"))]); (s [(SSym (s2l "lasgn")); (SSym (s2l "b"))])])])]));
  (1168, (s2l "for a, b in c; a; end"), Some (s [(SSym (s2l "for")); (s [(SSym (s2l "call")); SNil; (SSym (s2l "c"))]); (s [(SSym (s2l "masgn")); (s [(SSym (s2l "array")); (s [(SSym (s2l "lasgn")); (SSym (s2l "a"))]); (s [(SSym (s2l "lasgn")); (SSym (s2l "b"))])])]); (s [(SSym (s2l "lvar")); (SSym (s2l "a"))])]));
  (1169, (s2l "for a.b in c; a.b; end"), Some (s [(SSym (s2l "for")); (s [(SSym (s2l "call")); SNil; (SSym (s2l "c"))]); (s [(SSym (s2l "attrasgn")); (s [(SSym (s2l "call")); SNil; (SSym (s2l "a"))]); (SSym (s2l "b="))]); (s [(SSym (s2l "call")); (s [(SSym (s2l "call")); SNil; (SSym (s2l "a"))]); (SSym (s2l "b"))])]));
  (1170, (s2l "for A in c; a; end"), Some (s [(SSym (s2l "for")); (s [(SSym (s2l "call")); SNil; (SSym (s2l "c"))]); (s [(SSym (s2l "cdecl")); (SSym (s2l "A"))]); (s [(SSym (s2l "call")); SNil; (SSym (s2l "a"))])]));
  (1174, (s2l "true if true"), Some (s [(SSym (s2l "if")); (s [(SSym (s2l "true"))]); (s [(SSym (s2l "true"))]); SNil]));
  (1175, (s2l "true unless true"), Some (s [(SSym (s2l "if")); (s [(SSym (s2l "true"))]); SNil; (s [(SSym (s2l "true"))])]));
  (1176, (s2l "foo 'hi' if true"), Some (s [(SSym (s2l "if")); (s [(SSym (s2l "true"))]); (s [(SSym (s2l "call")); SNil; (SSym (s2l "foo")); (s [(SSym (s2l "str")); (SStr (s2l "hi"))])]); SNil]));
  (1177, (s2l "foo.bar 'hi' if true"), Some (s [(SSym (s2l "if")); (s [(SSym (s2l "true"))]); (s [(SSym (s2l "call")); (s [(SSym (s2l "call")); SNil; (SSym (s2l "foo"))]); (SSym (s2l "bar")); (s [(SSym (s2l "str")); (SStr (s2l "hi"))])]); SNil]));
  (1181, (s2l "true"), Some (s [(SSym (s2l "true"))]))].
Example parser_test_5_passes : forallb passes parser_test_5 = true.
Proof. vm_compute. reflexivity. Qed.

(** /repo/test/parser_test.rb, lines 1182-1387. *)
Definition parser_test_6 : list (N * str * option sexp) := [
  (1182, (s2l "false"), Some (s [(SSym (s2l "false"))]));
  (1183, (s2l "nil"), Some (s [(SSym (s2l "nil"))]));
  (1187, [99; 108; 97; 115; 115; 32; 70; 111; 111; 10; 101; 110; 100]%N, Some (s [(SSym (s2l "class")); (SSym (s2l "Foo")); SNil]));
  (1188, (s2l "class Foo;end"), Some (s [(SSym (s2l "class")); (SSym (s2l "Foo")); SNil]));
  (1189, (s2l "class FooBar; 1; 2; end"), Some (s [(SSym (s2l "class")); (SSym (s2l "FooBar")); SNil; (s [(SSym (s2l "lit")); (SInt (1))]); (s [(SSym (s2l "lit")); (SInt (2))])]));
  (1190, (s2l "class foo;end"), None);
  (1191, [99; 108; 97; 115; 115; 32; 70; 111; 111; 32; 60; 32; 66; 97; 114; 59; 32; 51; 10; 32; 52; 10; 32; 101; 110; 100]%N, Some (s [(SSym (s2l "class")); (SSym (s2l "Foo")); (s [(SSym (s2l "const")); (SSym (s2l "Bar"))]); (s [(SSym (s2l "lit")); (SInt (3))]); (s [(SSym (s2l "lit")); (SInt (4))])]));
  (1192, [99; 108; 97; 115; 115; 32; 70; 111; 111; 32; 60; 32; 98; 97; 114; 59; 32; 51; 10; 32; 52; 10; 32; 101; 110; 100]%N, Some (s [(SSym (s2l "class")); (SSym (s2l "Foo")); (s [(SSym (s2l "call")); SNil; (SSym (s2l "bar"))]); (s [(SSym (s2l "lit")); (SInt (3))]); (s [(SSym (s2l "lit")); (SInt (4))])]));
  (1193, (s2l "class Foo::Bar; end"), Some (s [(SSym (s2l "class")); (s [(SSym (s2l "colon2")); (s [(SSym (s2l "const")); (SSym (s2l "Foo"))]); (SSym (s2l "Bar"))]); SNil]));
  (1194, (s2l "class foo::Bar; end"), Some (s [(SSym (s2l "class")); (s [(SSym (s2l "colon2")); (s [(SSym (s2l "call")); SNil; (SSym (s2l "foo"))]); (SSym (s2l "Bar"))]); SNil]));
  (1195, (s2l "class ::Foo; end"), Some (s [(SSym (s2l "class")); (s [(SSym (s2l "colon3")); (SSym (s2l "Foo"))]); SNil]));
  (1199, (s2l "class Foo; class << self; end; end"), Some (s [(SSym (s2l "class")); (SSym (s2l "Foo")); SNil; (s [(SSym (s2l "sclass")); (s [(SSym (s2l "self"))])])]));
  (1200, (s2l "class Foo; class << Bar; 1; end; end"), Some (s [(SSym (s2l "class")); (SSym (s2l "Foo")); SNil; (s [(SSym (s2l "sclass")); (s [(SSym (s2l "const")); (SSym (s2l "Bar"))]); (s [(SSym (s2l "lit")); (SInt (1))])])]));
  (1201, (s2l "class Foo; class << (1 + 1); 1; 2; end; end"), Some (s [(SSym (s2l "class")); (SSym (s2l "Foo")); SNil; (s [(SSym (s2l "sclass")); (s [(SSym (s2l "call")); (s [(SSym (s2l "lit")); (SInt (1))]); (SSym (s2l "+")); (s [(SSym (s2l "lit")); (SInt (1))])]); (s [(SSym (s2l "lit")); (SInt (1))]); (s [(SSym (s2l "lit")); (SInt (2))])])]));
  (1205, [109; 111; 100; 117; 108; 101; 32; 70; 111; 111; 10; 101; 110; 100]%N, Some (s [(SSym (s2l "module")); (SSym (s2l "Foo"))]));
  (1206, (s2l "module Foo;end"), Some (s [(SSym (s2l "module")); (SSym (s2l "Foo"))]));
  (1207, (s2l "module FooBar; 1; 2; end"), Some (s [(SSym (s2l "module")); (SSym (s2l "FooBar")); (s [(SSym (s2l "lit")); (SInt (1))]); (s [(SSym (s2l "lit")); (SInt (2))])]));
  (1208, (s2l "module foo;end"), None);
  (1209, (s2l "module Foo::Bar; end"), Some (s [(SSym (s2l "module")); (s [(SSym (s2l "colon2")); (s [(SSym (s2l "const")); (SSym (s2l "Foo"))]); (SSym (s2l "Bar"))])]));
  (1210, (s2l "module foo::Bar; end"), Some (s [(SSym (s2l "module")); (s [(SSym (s2l "colon2")); (s [(SSym (s2l "call")); SNil; (SSym (s2l "foo"))]); (SSym (s2l "Bar"))])]));
  (1211, (s2l "module ::Foo; end"), Some (s [(SSym (s2l "module")); (s [(SSym (s2l "colon3")); (SSym (s2l "Foo"))])]));
  (1215, (s2l "[]"), Some (s [(SSym (s2l "array"))]));
  (1216, (s2l "[1]"), Some (s [(SSym (s2l "array")); (s [(SSym (s2l "lit")); (SInt (1))])]));
  (1217, (s2l "[1,]"), Some (s [(SSym (s2l "array")); (s [(SSym (s2l "lit")); (SInt (1))])]));
  (1218, (s2l "['foo']"), Some (s [(SSym (s2l "array")); (s [(SSym (s2l "str")); (SStr (s2l "foo"))])]));
  (1219, (s2l "[1, 2, 3]"), Some (s [(SSym (s2l "array")); (s [(SSym (s2l "lit")); (SInt (1))]); (s [(SSym (s2l "lit")); (SInt (2))]); (s [(SSym (s2l "lit")); (SInt (3))])]));
  (1220, (s2l "[1, (), 2, 3, ]"), Some (s [(SSym (s2l "array")); (s [(SSym (s2l "lit")); (SInt (1))]); (s [(SSym (s2l "nil"))]); (s [(SSym (s2l "lit")); (SInt (2))]); (s [(SSym (s2l "lit")); (SInt (3))])]));
  (1221, (s2l "[x, y, z]"), Some (s [(SSym (s2l "array")); (s [(SSym (s2l "call")); SNil; (SSym (s2l "x"))]); (s [(SSym (s2l "call")); SNil; (SSym (s2l "y"))]); (s [(SSym (s2l "call")); SNil; (SSym (s2l "z"))])]));
  (1222, [91; 10; 49; 32; 44; 32; 10; 50; 44; 10; 32; 51; 93]%N, Some (s [(SSym (s2l "array")); (s [(SSym (s2l "lit")); (SInt (1))]); (s [(SSym (s2l "lit")); (SInt (2))]); (s [(SSym (s2l "lit")); (SInt (3))])]));
  (1223, [91; 10; 49; 32; 44; 32; 10; 50; 44; 10; 32; 51; 10; 93]%N, Some (s [(SSym (s2l "array")); (s [(SSym (s2l "lit")); (SInt (1))]); (s [(SSym (s2l "lit")); (SInt (2))]); (s [(SSym (s2l "lit")); (SInt (3))])]));
  (1224, [91; 10; 49; 32; 44; 32; 10; 50; 44; 10; 32; 51; 44; 10; 93]%N, Some (s [(SSym (s2l "array")); (s [(SSym (s2l "lit")); (SInt (1))]); (s [(SSym (s2l "lit")); (SInt (2))]); (s [(SSym (s2l "lit")); (SInt (3))])]));
  (1225, (s2l "[a = foo, b]"), Some (s [(SSym (s2l "array")); (s [(SSym (s2l "lasgn")); (SSym (s2l "a")); (s [(SSym (s2l "call")); SNil; (SSym (s2l "foo"))])]); (s [(SSym (s2l "call")); SNil; (SSym (s2l "b"))])]));
  (1227, (s2l "[ , 1]"), None);
  (1234, (s2l "%w[]"), Some (s [(SSym (s2l "array"))]));
  (1235, (s2l "%w|1 2 3|"), Some (s [(SSym (s2l "array")); (s [(SSym (s2l "str")); (SStr (s2l "1"))]); (s [(SSym (s2l "str")); (SStr (s2l "2"))]); (s [(SSym (s2l "str")); (SStr (s2l "3"))])]));
  (1236, [37; 119; 91; 32; 32; 49; 32; 50; 9; 32; 32; 51; 10; 32; 10; 52; 32; 93]%N, Some (s [(SSym (s2l "array")); (s [(SSym (s2l "str")); (SStr (s2l "1"))]); (s [(SSym (s2l "str")); (SStr (s2l "2"))]); (s [(SSym (s2l "str")); (SStr (s2l "3"))]); (s [(SSym (s2l "str")); (SStr (s2l "4"))])]));
  (1237, [37; 87; 91; 32; 32; 49; 32; 50; 9; 32; 32; 51; 10; 32; 10; 52; 32; 93]%N, Some (s [(SSym (s2l "array")); (s [(SSym (s2l "str")); (SStr (s2l "1"))]); (s [(SSym (s2l "str")); (SStr (s2l "2"))]); (s [(SSym (s2l "str")); (SStr (s2l "3"))]); (s [(SSym (s2l "str")); (SStr (s2l "4"))])]));
  (1238, (s2l "%W[#{1+1}]"), Some (s [(SSym (s2l "array")); (s [(SSym (s2l "dstr")); (SStr (s2l "")); (s [(SSym (s2l "evstr")); (s [(SSym (s2l "call")); (s [(SSym (s2l "lit")); (SInt (1))]); (SSym (s2l "+")); (s [(SSym (s2l "lit")); (SInt (1))])])])])]));
  (1239, (s2l "%w(#{1+1})"), Some (s [(SSym (s2l "array")); (s [(SSym (s2l "str")); (SStr (s2l "#{1+1}"))])]));
  (1240, (s2l "%i[ foo#{1} bar ]"), Some (s [(SSym (s2l "array")); (s [(SSym (s2l "lit")); (SSym (s2l "foo#{1}"))]); (s [(SSym (s2l "lit")); (SSym (s2l "bar"))])]));
  (1241, (s2l "%I[ foo#{1} bar ]"), Some (s [(SSym (s2l "array")); (s [(SSym (s2l "dsym")); (SStr (s2l "foo")); (s [(SSym (s2l "evstr")); (s [(SSym (s2l "lit")); (SInt (1))])])]); (s [(SSym (s2l "lit")); (SSym (s2l "bar"))])]));
  (1242, (s2l "%w[1\ 2]"), Some (s [(SSym (s2l "array")); (s [(SSym (s2l "str")); (SStr (s2l "1 2"))])]));
  (1243, (s2l "%W[1\n2]"), Some (s [(SSym (s2l "array")); (s [(SSym (s2l "str")); (SStr [49; 10; 50]%N)])]));
  (1244, (s2l "%w[1\n2]"), Some (s [(SSym (s2l "array")); (s [(SSym (s2l "str")); (SStr (s2l "1\n2"))])]));
  (1245, [37; 119; 91; 49; 92; 10; 50; 93]%N, Some (s [(SSym (s2l "array")); (s [(SSym (s2l "str")); (SStr [49; 10; 50]%N)])]));
  (1246, (s2l "%W(1\t2)"), Some (s [(SSym (s2l "array")); (s [(SSym (s2l "str")); (SStr [49; 9; 50]%N)])]));
  (1250, (s2l "{}"), Some (s [(SSym (s2l "hash"))]));
  (1251, (s2l "{ 1 => 2 }"), Some (s [(SSym (s2l "hash")); (s [(SSym (s2l "lit")); (SInt (1))]); (s [(SSym (s2l "lit")); (SInt (2))])]));
  (1252, (s2l "{ 1 => 2, }"), Some (s [(SSym (s2l "hash")); (s [(SSym (s2l "lit")); (SInt (1))]); (s [(SSym (s2l "lit")); (SInt (2))])]));
  (1253, [123; 10; 32; 49; 32; 61; 62; 32; 50; 44; 10; 32; 125]%N, Some (s [(SSym (s2l "hash")); (s [(SSym (s2l "lit")); (SInt (1))]); (s [(SSym (s2l "lit")); (SInt (2))])]));
  (1254, (s2l "foo :a => 1"), Some (s [(SSym (s2l "call")); SNil; (SSym (s2l "foo")); (s [(SSym (s2l "bare_hash")); (s [(SSym (s2l "lit")); (SSym (s2l "a"))]); (s [(SSym (s2l "lit")); (SInt (1))])])]));
  (1255, (s2l "foo :a=>1"), Some (s [(SSym (s2l "call")); SNil; (SSym (s2l "foo")); (s [(SSym (s2l "bare_hash")); (s [(SSym (s2l "lit")); (SSym (s2l "a"))]); (s [(SSym (s2l "lit")); (SInt (1))])])]));
  (1256, (s2l "{ foo: 'bar' }"), Some (s [(SSym (s2l "hash")); (s [(SSym (s2l "lit")); (SSym (s2l "foo"))]); (s [(SSym (s2l "str")); (SStr (s2l "bar"))])]));
  (1257, (s2l "{ 1 => 2, 'foo' => 'bar' }"), Some (s [(SSym (s2l "hash")); (s [(SSym (s2l "lit")); (SInt (1))]); (s [(SSym (s2l "lit")); (SInt (2))]); (s [(SSym (s2l "str")); (SStr (s2l "foo"))]); (s [(SSym (s2l "str")); (SStr (s2l "bar"))])]));
  (1258, [123; 10; 32; 49; 32; 61; 62; 32; 10; 50; 44; 10; 32; 39; 102; 111; 111; 39; 32; 61; 62; 10; 39; 98; 97; 114; 39; 10; 125]%N, Some (s [(SSym (s2l "hash")); (s [(SSym (s2l "lit")); (SInt (1))]); (s [(SSym (s2l "lit")); (SInt (2))]); (s [(SSym (s2l "str")); (SStr (s2l "foo"))]); (s [(SSym (s2l "str")); (SStr (s2l "bar"))])]));
  (1259, (s2l "{ foo: 'bar', baz: 'buz' }"), Some (s [(SSym (s2l "hash")); (s [(SSym (s2l "lit")); (SSym (s2l "foo"))]); (s [(SSym (s2l "str")); (SStr (s2l "bar"))]); (s [(SSym (s2l "lit")); (SSym (s2l "baz"))]); (s [(SSym (s2l "str")); (SStr (s2l "buz"))])]));
  (1260, (s2l "{ a => b, c => d }"), Some (s [(SSym (s2l "hash")); (s [(SSym (s2l "call")); SNil; (SSym (s2l "a"))]); (s [(SSym (s2l "call")); SNil; (SSym (s2l "b"))]); (s [(SSym (s2l "call")); SNil; (SSym (s2l "c"))]); (s [(SSym (s2l "call")); SNil; (SSym (s2l "d"))])]));
  (1261, (s2l "{ 'a': 'b' }"), Some (s [(SSym (s2l "hash")); (s [(SSym (s2l "lit")); (SSym (s2l "a"))]); (s [(SSym (s2l "str")); (SStr (s2l "b"))])]));
  (1262, (s2l "{ ""a"": ""b"" }"), Some (s [(SSym (s2l "hash")); (s [(SSym (s2l "lit")); (SSym (s2l "a"))]); (s [(SSym (s2l "str")); (SStr (s2l "b"))])]));
  (1263, (s2l "{ a: -1, b: 2 }"), Some (s [(SSym (s2l "hash")); (s [(SSym (s2l "lit")); (SSym (s2l "a"))]); (s [(SSym (s2l "lit")); (SInt (-1))]); (s [(SSym (s2l "lit")); (SSym (s2l "b"))]); (s [(SSym (s2l "lit")); (SInt (2))])]));
  (1264, (s2l "{ ""a#{1+1}"": ""b"" }"), Some (s [(SSym (s2l "hash")); (s [(SSym (s2l "dsym")); (SStr (s2l "a")); (s [(SSym (s2l "evstr")); (s [(SSym (s2l "call")); (s [(SSym (s2l "lit")); (SInt (1))]); (SSym (s2l "+")); (s [(SSym (s2l "lit")); (SInt (1))])])])]); (s [(SSym (s2l "str")); (SStr (s2l "b"))])]));
  (1266, (s2l "{ , 1 => 2 }"), None);
  (1270, (s2l "[1 => 2]"), Some (s [(SSym (s2l "array")); (s [(SSym (s2l "bare_hash")); (s [(SSym (s2l "lit")); (SInt (1))]); (s [(SSym (s2l "lit")); (SInt (2))])])]));
  (1271, (s2l "[1 => 2,]"), Some (s [(SSym (s2l "array")); (s [(SSym (s2l "bare_hash")); (s [(SSym (s2l "lit")); (SInt (1))]); (s [(SSym (s2l "lit")); (SInt (2))])])]));
  (1272, (s2l "[0, 1 => 2]"), Some (s [(SSym (s2l "array")); (s [(SSym (s2l "lit")); (SInt (0))]); (s [(SSym (s2l "bare_hash")); (s [(SSym (s2l "lit")); (SInt (1))]); (s [(SSym (s2l "lit")); (SInt (2))])])]));
  (1273, (s2l "[0, foo: ""bar""]"), Some (s [(SSym (s2l "array")); (s [(SSym (s2l "lit")); (SInt (0))]); (s [(SSym (s2l "bare_hash")); (s [(SSym (s2l "lit")); (SSym (s2l "foo"))]); (s [(SSym (s2l "str")); (SStr (s2l "bar"))])])]));
  (1274, (s2l "[""foo"" => :bar, baz: 42]"), Some (s [(SSym (s2l "array")); (s [(SSym (s2l "bare_hash")); (s [(SSym (s2l "str")); (SStr (s2l "foo"))]); (s [(SSym (s2l "lit")); (SSym (s2l "bar"))]); (s [(SSym (s2l "lit")); (SSym (s2l "baz"))]); (s [(SSym (s2l "lit")); (SInt (42))])])]));
  (1275, (s2l "bar[1 => 2]"), Some (s [(SSym (s2l "call")); (s [(SSym (s2l "call")); SNil; (SSym (s2l "bar"))]); (SSym (s2l "[]")); (s [(SSym (s2l "bare_hash")); (s [(SSym (s2l "lit")); (SInt (1))]); (s [(SSym (s2l "lit")); (SInt (2))])])]));
  (1276, (s2l "Foo::Bar[1 => 2]"), Some (s [(SSym (s2l "call")); (s [(SSym (s2l "colon2")); (s [(SSym (s2l "const")); (SSym (s2l "Foo"))]); (SSym (s2l "Bar"))]); (SSym (s2l "[]")); (s [(SSym (s2l "bare_hash")); (s [(SSym (s2l "lit")); (SInt (1))]); (s [(SSym (s2l "lit")); (SInt (2))])])]));
  (1277, (s2l "Hash[a: 1, b: 2]"), Some (s [(SSym (s2l "call")); (s [(SSym (s2l "const")); (SSym (s2l "Hash"))]); (SSym (s2l "[]")); (s [(SSym (s2l "bare_hash")); (s [(SSym (s2l "lit")); (SSym (s2l "a"))]); (s [(SSym (s2l "lit")); (SInt (1))]); (s [(SSym (s2l "lit")); (SSym (s2l "b"))]); (s [(SSym (s2l "lit")); (SInt (2))])])]));
  (1279, (s2l "[1 => 2, 3]"), None);
  (1280, (s2l "[0, 1 => 2, 3]"), None);
  (1285, (s2l "{a: a = 1, b: 2}"), Some (s [(SSym (s2l "hash")); (s [(SSym (s2l "lit")); (SSym (s2l "a"))]); (s [(SSym (s2l "lasgn")); (SSym (s2l "a")); (s [(SSym (s2l "lit")); (SInt (1))])]); (s [(SSym (s2l "lit")); (SSym (s2l "b"))]); (s [(SSym (s2l "lit")); (SInt (2))])]));
  (1290, (s2l "# comment"), Some (s [(SSym (s2l "block"))]));
  (1291, [35; 32; 99; 111; 109; 109; 101; 110; 116; 10; 35; 99; 111; 109; 109; 101; 110; 116; 32; 50]%N, Some (s [(SSym (s2l "block"))]));
  (1296, (s2l "1 + 1 # comment"), Some (s [(SSym (s2l "call")); (s [(SSym (s2l "lit")); (SInt (1))]); (SSym (s2l "+")); (s [(SSym (s2l "lit")); (SInt (1))])]));
  (1302, (s2l "1..10"), Some (s [(SSym (s2l "lit")); (SRange (1) (10) false)]));
  (1303, (s2l "1..'a'"), Some (s [(SSym (s2l "dot2")); (s [(SSym (s2l "lit")); (SInt (1))]); (s [(SSym (s2l "str")); (SStr (s2l "a"))])]));
  (1304, (s2l "'a'..1"), Some (s [(SSym (s2l "dot2")); (s [(SSym (s2l "str")); (SStr (s2l "a"))]); (s [(SSym (s2l "lit")); (SInt (1))])]));
  (1305, (s2l "1...10"), Some (s [(SSym (s2l "lit")); (SRange (1) (10) true)]));
  (1306, (s2l "1.1..2.2"), Some (s [(SSym (s2l "dot2")); (s [(SSym (s2l "lit")); (SFloat false [])]); (s [(SSym (s2l "lit")); (SFloat false [])])]));
  (1307, (s2l "1.1...2.2"), Some (s [(SSym (s2l "dot3")); (s [(SSym (s2l "lit")); (SFloat false [])]); (s [(SSym (s2l "lit")); (SFloat false [])])]));
  (1308, (s2l "'a'..'z'"), Some (s [(SSym (s2l "dot2")); (s [(SSym (s2l "str")); (SStr (s2l "a"))]); (s [(SSym (s2l "str")); (SStr (s2l "z"))])]));
  (1309, (s2l "'a'...'z'"), Some (s [(SSym (s2l "dot3")); (s [(SSym (s2l "str")); (SStr (s2l "a"))]); (s [(SSym (s2l "str")); (SStr (s2l "z"))])]));
  (1310, (s2l "('a')..('z')"), Some (s [(SSym (s2l "dot2")); (s [(SSym (s2l "str")); (SStr (s2l "a"))]); (s [(SSym (s2l "str")); (SStr (s2l "z"))])]));
  (1311, (s2l "('a')...('z')"), Some (s [(SSym (s2l "dot3")); (s [(SSym (s2l "str")); (SStr (s2l "a"))]); (s [(SSym (s2l "str")); (SStr (s2l "z"))])]));
  (1312, (s2l "foo..bar"), Some (s [(SSym (s2l "dot2")); (s [(SSym (s2l "call")); SNil; (SSym (s2l "foo"))]); (s [(SSym (s2l "call")); SNil; (SSym (s2l "bar"))])]));
  (1313, (s2l "foo...bar"), Some (s [(SSym (s2l "dot3")); (s [(SSym (s2l "call")); SNil; (SSym (s2l "foo"))]); (s [(SSym (s2l "call")); SNil; (SSym (s2l "bar"))])]));
  (1314, (s2l "foo = 1..10"), Some (s [(SSym (s2l "lasgn")); (SSym (s2l "foo")); (s [(SSym (s2l "lit")); (SRange (1) (10) false)])]));
  (1315, (s2l "..3"), Some (s [(SSym (s2l "dot2")); SNil; (s [(SSym (s2l "lit")); (SInt (3))])]));
  (1316, (s2l "(..3)"), Some (s [(SSym (s2l "dot2")); SNil; (s [(SSym (s2l "lit")); (SInt (3))])]));
  (1317, (s2l "x = ...3"), Some (s [(SSym (s2l "lasgn")); (SSym (s2l "x")); (s [(SSym (s2l "dot3")); SNil; (s [(SSym (s2l "lit")); (SInt (3))])])]));
  (1318, (s2l "4.."), Some (s [(SSym (s2l "dot2")); (s [(SSym (s2l "lit")); (SInt (4))]); SNil]));
  (1319, (s2l "4..nil"), Some (s [(SSym (s2l "dot2")); (s [(SSym (s2l "lit")); (SInt (4))]); (s [(SSym (s2l "nil"))])]));
  (1320, (s2l "(4..)"), Some (s [(SSym (s2l "dot2")); (s [(SSym (s2l "lit")); (SInt (4))]); SNil]));
  (1321, [52; 46; 46; 10; 53]%N, Some (s [(SSym (s2l "lit")); (SRange (4) (5) false)]));
  (1322, [52; 46; 46; 10; 102; 111; 111]%N, Some (s [(SSym (s2l "dot2")); (s [(SSym (s2l "lit")); (SInt (4))]); (s [(SSym (s2l "call")); SNil; (SSym (s2l "foo"))])]));
  (1323, (s2l "(4..) * 5"), Some (s [(SSym (s2l "call")); (s [(SSym (s2l "dot2")); (s [(SSym (s2l "lit")); (SInt (4))]); SNil]); (SSym (s2l "*")); (s [(SSym (s2l "lit")); (SInt (5))])]));
  (1324, (s2l "x = (4..)"), Some (s [(SSym (s2l "lasgn")); (SSym (s2l "x")); (s [(SSym (s2l "dot2")); (s [(SSym (s2l "lit")); (SInt (4))]); SNil])]));
  (1325, [99; 97; 115; 101; 32; 49; 10; 119; 104; 101; 110; 32; 49; 10; 50; 46; 46; 10; 119; 104; 101; 110; 32; 50; 10; 51; 46; 46; 46; 10; 119; 104; 101; 110; 32; 52; 10; 53; 46; 46; 10; 101; 110; 100]%N, Some (s [(SSym (s2l "case")); (s [(SSym (s2l "lit")); (SInt (1))]); (s [(SSym (s2l "when")); (s [(SSym (s2l "array")); (s [(SSym (s2l "lit")); (SInt (1))])]); (s [(SSym (s2l "dot2")); (s [(SSym (s2l "lit")); (SInt (2))]); SNil])]); (s [(SSym (s2l "when")); (s [(SSym (s2l "array")); (s [(SSym (s2l "lit")); (SInt (2))])]); (s [(SSym (s2l "dot3")); (s [(SSym (s2l "lit")); (SInt (3))]); SNil])]); (s [(SSym (s2l "when")); (s [(SSym (s2l "array")); (s [(SSym (s2l "lit")); (SInt (4))])]); (s [(SSym (s2l "dot2")); (s [(SSym (s2l "lit")); (SInt (5))]); SNil])]); SNil]));
  (1326, [99; 97; 115; 101; 32; 49; 10; 119; 104; 101; 110; 32; 49; 46; 46; 50; 32; 116; 104; 101; 110; 32; 49; 10; 119; 104; 101; 110; 32; 51; 46; 46; 32; 116; 104; 101; 110; 32; 51; 10; 101; 110; 100]%N, Some (s [(SSym (s2l "case")); (s [(SSym (s2l "lit")); (SInt (1))]); (s [(SSym (s2l "when")); (s [(SSym (s2l "array")); (s [(SSym (s2l "lit")); (SRange (1) (2) false)])]); (s [(SSym (s2l "lit")); (SInt (1))])]); (s [(SSym (s2l "when")); (s [(SSym (s2l "array")); (s [(SSym (s2l "dot2")); (s [(SSym (s2l "lit")); (SInt (3))]); SNil])]); (s [(SSym (s2l "lit")); (SInt (3))])]); SNil]));
  (1327, [114; 117; 98; 121; 95; 118; 101; 114; 115; 105; 111; 110; 95; 105; 115; 32; 39; 39; 46; 46; 46; 39; 51; 46; 48; 39; 32; 100; 111; 10; 101; 110; 100]%N, Some (s [(SSym (s2l "iter")); (s [(SSym (s2l "call")); SNil; (SSym (s2l "ruby_version_is")); (s [(SSym (s2l "dot3")); (s [(SSym (s2l "str")); (SStr (s2l ""))]); (s [(SSym (s2l "str")); (SStr (s2l "3.0"))])])]); (SInt (0))]));
  (1328, [102; 111; 111; 32; 49; 46; 46; 46; 104; 101; 105; 103; 104; 116; 32; 100; 111; 10; 101; 110; 100]%N, Some (s [(SSym (s2l "iter")); (s [(SSym (s2l "call")); SNil; (SSym (s2l "foo")); (s [(SSym (s2l "dot3")); (s [(SSym (s2l "lit")); (SInt (1))]); (s [(SSym (s2l "call")); SNil; (SSym (s2l "height"))])])]); (SInt (0))]));
  (1332, (s2l "def foo(...); end"), Some (s [(SSym (s2l "defn")); (SSym (s2l "foo")); (s [(SSym (s2l "args")); (s [(SSym (s2l "forward_args"))])]); (s [(SSym (s2l "nil"))])]));
  (1333, (s2l "def foo(...); bar(...); end"), Some (s [(SSym (s2l "defn")); (SSym (s2l "foo")); (s [(SSym (s2l "args")); (s [(SSym (s2l "forward_args"))])]); (s [(SSym (s2l "call")); SNil; (SSym (s2l "bar")); (s [(SSym (s2l "forward_args"))])])]));
  (1334, (s2l "def foo(a, ...); bar(a, ...); end"), Some (s [(SSym (s2l "defn")); (SSym (s2l "foo")); (s [(SSym (s2l "args")); (SSym (s2l "a")); (s [(SSym (s2l "forward_args"))])]); (s [(SSym (s2l "call")); SNil; (SSym (s2l "bar")); (s [(SSym (s2l "lvar")); (SSym (s2l "a"))]); (s [(SSym (s2l "forward_args"))])])]));
  (1335, (s2l "-> (...) { bar(...) }"), Some (s [(SSym (s2l "iter")); (s [(SSym (s2l "lambda"))]); (s [(SSym (s2l "args")); (s [(SSym (s2l "forward_args"))])]); (s [(SSym (s2l "call")); SNil; (SSym (s2l "bar")); (s [(SSym (s2l "forward_args"))])])]));
  (1336, (s2l "-> (a, ...) { bar(a, ...) }"), Some (s [(SSym (s2l "iter")); (s [(SSym (s2l "lambda"))]); (s [(SSym (s2l "args")); (SSym (s2l "a")); (s [(SSym (s2l "forward_args"))])]); (s [(SSym (s2l "call")); SNil; (SSym (s2l "bar")); (s [(SSym (s2l "lvar")); (SSym (s2l "a"))]); (s [(SSym (s2l "forward_args"))])])]));
  (1337, (s2l "def foo(..., a); bar(...); end"), None);
  (1338, (s2l "def foo(a); bar(...); end"), None);
  (1339, (s2l "bar(...)"), None);
  (1340, (s2l "foo { |...| bar(...) }"), None);
  (1341, (s2l "foo { |a, ...| bar(a, ...) }"), None);
  (1342, (s2l "def foo(...); a = ...; end"), None);
  (1345, (s2l "def foo(...); bar(1...2); end"), Some (s [(SSym (s2l "defn")); (SSym (s2l "foo")); (s [(SSym (s2l "args")); (s [(SSym (s2l "forward_args"))])]); (s [(SSym (s2l "call")); SNil; (SSym (s2l "bar")); (s [(SSym (s2l "lit")); (SRange (1) (2) true)])])]));
  (1346, (s2l "def foo(...); bar(1...); end"), Some (s [(SSym (s2l "defn")); (SSym (s2l "foo")); (s [(SSym (s2l "args")); (s [(SSym (s2l "forward_args"))])]); (s [(SSym (s2l "call")); SNil; (SSym (s2l "bar")); (s [(SSym (s2l "dot3")); (s [(SSym (s2l "lit")); (SInt (1))]); SNil])])]));
  (1347, (s2l "def foo(...); bar(...2); end"), Some (s [(SSym (s2l "defn")); (SSym (s2l "foo")); (s [(SSym (s2l "args")); (s [(SSym (s2l "forward_args"))])]); (s [(SSym (s2l "call")); SNil; (SSym (s2l "bar")); (s [(SSym (s2l "dot3")); SNil; (s [(SSym (s2l "lit")); (SInt (2))])])])]));
  (1351, (s2l "return"), Some (s [(SSym (s2l "return"))]));
  (1352, (s2l "return foo"), Some (s [(SSym (s2l "return")); (s [(SSym (s2l "call")); SNil; (SSym (s2l "foo"))])]));
  (1353, (s2l "return 1, 2"), Some (s [(SSym (s2l "return")); (s [(SSym (s2l "array")); (s [(SSym (s2l "lit")); (SInt (1))]); (s [(SSym (s2l "lit")); (SInt (2))])])]));
  (1354, (s2l "return foo if true"), Some (s [(SSym (s2l "if")); (s [(SSym (s2l "true"))]); (s [(SSym (s2l "return")); (s [(SSym (s2l "call")); SNil; (SSym (s2l "foo"))])]); SNil]));
  (1355, (s2l "return x = 1"), Some (s [(SSym (s2l "return")); (s [(SSym (s2l "lasgn")); (SSym (s2l "x")); (s [(SSym (s2l "lit")); (SInt (1))])])]));
  (1356, (s2l "return :x => 1"), Some (s [(SSym (s2l "return")); (s [(SSym (s2l "bare_hash")); (s [(SSym (s2l "lit")); (SSym (s2l "x"))]); (s [(SSym (s2l "lit")); (SInt (1))])])]));
  (1357, (s2l "return 1, :x => 2"), Some (s [(SSym (s2l "return")); (s [(SSym (s2l "array")); (s [(SSym (s2l "lit")); (SInt (1))]); (s [(SSym (s2l "bare_hash")); (s [(SSym (s2l "lit")); (SSym (s2l "x"))]); (s [(SSym (s2l "lit")); (SInt (2))])])])]));
  (1358, (s2l "return 1, x: 2"), Some (s [(SSym (s2l "return")); (s [(SSym (s2l "array")); (s [(SSym (s2l "lit")); (SInt (1))]); (s [(SSym (s2l "bare_hash")); (s [(SSym (s2l "lit")); (SSym (s2l "x"))]); (s [(SSym (s2l "lit")); (SInt (2))])])])]));
  (1360, (s2l "return x: 1"), None);
  (1364, [102; 111; 111; 32; 100; 111; 10; 101; 110; 100]%N, Some (s [(SSym (s2l "iter")); (s [(SSym (s2l "call")); SNil; (SSym (s2l "foo"))]); (SInt (0))]));
  (1365, [102; 111; 111; 32; 100; 111; 10; 49; 10; 50; 10; 101; 110; 100]%N, Some (s [(SSym (s2l "iter")); (s [(SSym (s2l "call")); SNil; (SSym (s2l "foo"))]); (SInt (0)); (s [(SSym (s2l "block")); (s [(SSym (s2l "lit")); (SInt (1))]); (s [(SSym (s2l "lit")); (SInt (2))])])]));
  (1366, [102; 111; 111; 32; 100; 111; 32; 124; 120; 44; 32; 121; 124; 10; 120; 10; 121; 10; 101; 110; 100]%N, Some (s [(SSym (s2l "iter")); (s [(SSym (s2l "call")); SNil; (SSym (s2l "foo"))]); (s [(SSym (s2l "args")); (SSym (s2l "x")); (SSym (s2l "y"))]); (s [(SSym (s2l "block")); (s [(SSym (s2l "lvar")); (SSym (s2l "x"))]); (s [(SSym (s2l "lvar")); (SSym (s2l "y"))])])]));
  (1367, [102; 111; 111; 32; 100; 111; 32; 124; 124; 10; 101; 110; 100]%N, Some (s [(SSym (s2l "iter")); (s [(SSym (s2l "call")); SNil; (SSym (s2l "foo"))]); (s [(SSym (s2l "args"))])]));
  (1368, [102; 111; 111; 32; 100; 111; 32; 124; 32; 124; 10; 101; 110; 100]%N, Some (s [(SSym (s2l "iter")); (s [(SSym (s2l "call")); SNil; (SSym (s2l "foo"))]); (s [(SSym (s2l "args"))])]));
  (1369, [102; 111; 111; 40; 97; 44; 32; 98; 41; 32; 100; 111; 32; 124; 120; 44; 32; 121; 124; 10; 120; 10; 121; 10; 101; 110; 100]%N, Some (s [(SSym (s2l "iter")); (s [(SSym (s2l "call")); SNil; (SSym (s2l "foo")); (s [(SSym (s2l "call")); SNil; (SSym (s2l "a"))]); (s [(SSym (s2l "call")); SNil; (SSym (s2l "b"))])]); (s [(SSym (s2l "args")); (SSym (s2l "x")); (SSym (s2l "y"))]); (s [(SSym (s2l "block")); (s [(SSym (s2l "lvar")); (SSym (s2l "x"))]); (s [(SSym (s2l "lvar")); (SSym (s2l "y"))])])]));
  (1370, (s2l "super do |x| x end"), Some (s [(SSym (s2l "iter")); (s [(SSym (s2l "zsuper"))]); (s [(SSym (s2l "args")); (SSym (s2l "x"))]); (s [(SSym (s2l "lvar")); (SSym (s2l "x"))])]));
  (1371, (s2l "super() do |x| x end"), Some (s [(SSym (s2l "iter")); (s [(SSym (s2l "super"))]); (s [(SSym (s2l "args")); (SSym (s2l "x"))]); (s [(SSym (s2l "lvar")); (SSym (s2l "x"))])]));
  (1372, (s2l "super(a, b) do |x| x end"), Some (s [(SSym (s2l "iter")); (s [(SSym (s2l "super")); (s [(SSym (s2l "call")); SNil; (SSym (s2l "a"))]); (s [(SSym (s2l "call")); SNil; (SSym (s2l "b"))])]); (s [(SSym (s2l "args")); (SSym (s2l "x"))]); (s [(SSym (s2l "lvar")); (SSym (s2l "x"))])]));
  (1373, (s2l "foo { }"), Some (s [(SSym (s2l "iter")); (s [(SSym (s2l "call")); SNil; (SSym (s2l "foo"))]); (SInt (0))]));
  (1374, (s2l "foo { 1; 2 }"), Some (s [(SSym (s2l "iter")); (s [(SSym (s2l "call")); SNil; (SSym (s2l "foo"))]); (SInt (0)); (s [(SSym (s2l "block")); (s [(SSym (s2l "lit")); (SInt (1))]); (s [(SSym (s2l "lit")); (SInt (2))])])]));
  (1375, (s2l "foo { |x, y| x; y }"), Some (s [(SSym (s2l "iter")); (s [(SSym (s2l "call")); SNil; (SSym (s2l "foo"))]); (s [(SSym (s2l "args")); (SSym (s2l "x")); (SSym (s2l "y"))]); (s [(SSym (s2l "block")); (s [(SSym (s2l "lvar")); (SSym (s2l "x"))]); (s [(SSym (s2l "lvar")); (SSym (s2l "y"))])])]));
  (1376, (s2l "foo { |x| x }; x"), Some (s [(SSym (s2l "block")); (s [(SSym (s2l "iter")); (s [(SSym (s2l "call")); SNil; (SSym (s2l "foo"))]); (s [(SSym (s2l "args")); (SSym (s2l "x"))]); (s [(SSym (s2l "lvar")); (SSym (s2l "x"))])]); (s [(SSym (s2l "call")); SNil; (SSym (s2l "x"))])]));
  (1377, (s2l "foo { || }"), Some (s [(SSym (s2l "iter")); (s [(SSym (s2l "call")); SNil; (SSym (s2l "foo"))]); (s [(SSym (s2l "args"))])]));
  (1378, (s2l "x = 1; foo { x }; x"), Some (s [(SSym (s2l "block")); (s [(SSym (s2l "lasgn")); (SSym (s2l "x")); (s [(SSym (s2l "lit")); (SInt (1))])]); (s [(SSym (s2l "iter")); (s [(SSym (s2l "call")); SNil; (SSym (s2l "foo"))]); (SInt (0)); (s [(SSym (s2l "lvar")); (SSym (s2l "x"))])]); (s [(SSym (s2l "lvar")); (SSym (s2l "x"))])]));
  (1379, (s2l "super { |x| x }; x"), Some (s [(SSym (s2l "block")); (s [(SSym (s2l "iter")); (s [(SSym (s2l "zsuper"))]); (s [(SSym (s2l "args")); (SSym (s2l "x"))]); (s [(SSym (s2l "lvar")); (SSym (s2l "x"))])]); (s [(SSym (s2l "call")); SNil; (SSym (s2l "x"))])]));
  (1380, (s2l "super() { |x| x }; x"), Some (s [(SSym (s2l "block")); (s [(SSym (s2l "iter")); (s [(SSym (s2l "super"))]); (s [(SSym (s2l "args")); (SSym (s2l "x"))]); (s [(SSym (s2l "lvar")); (SSym (s2l "x"))])]); (s [(SSym (s2l "call")); SNil; (SSym (s2l "x"))])]));
  (1381, (s2l "super(a) { |x| x }; x"), Some (s [(SSym (s2l "block")); (s [(SSym (s2l "iter")); (s [(SSym (s2l "super")); (s [(SSym (s2l "call")); SNil; (SSym (s2l "a"))])]); (s [(SSym (s2l "args")); (SSym (s2l "x"))]); (s [(SSym (s2l "lvar")); (SSym (s2l "x"))])]); (s [(SSym (s2l "call")); SNil; (SSym (s2l "x"))])]));
  (1382, [102; 111; 111; 32; 100; 111; 10; 98; 97; 114; 32; 100; 111; 10; 101; 110; 100; 10; 101; 110; 100]%N, Some (s [(SSym (s2l "iter")); (s [(SSym (s2l "call")); SNil; (SSym (s2l "foo"))]); (SInt (0)); (s [(SSym (s2l "iter")); (s [(SSym (s2l "call")); SNil; (SSym (s2l "bar"))]); (SInt (0))])]));
  (1383, [102; 111; 111; 32; 100; 111; 32; 124; 40; 120; 44; 32; 121; 41; 44; 32; 122; 124; 10; 101; 110; 100]%N, Some (s [(SSym (s2l "iter")); (s [(SSym (s2l "call")); SNil; (SSym (s2l "foo"))]); (s [(SSym (s2l "args")); (s [(SSym (s2l "masgn")); (SSym (s2l "x")); (SSym (s2l "y"))]); (SSym (s2l "z"))])]));
  (1384, [102; 111; 111; 32; 100; 111; 32; 124; 40; 120; 44; 32; 40; 121; 44; 32; 122; 41; 41; 124; 10; 101; 110; 100]%N, Some (s [(SSym (s2l "iter")); (s [(SSym (s2l "call")); SNil; (SSym (s2l "foo"))]); (s [(SSym (s2l "args")); (s [(SSym (s2l "masgn")); (SSym (s2l "x")); (s [(SSym (s2l "masgn")); (SSym (s2l "y")); (SSym (s2l "z"))])])])]));
  (1385, (s2l "x = foo.bar { |y| y }"), Some (s [(SSym (s2l "lasgn")); (SSym (s2l "x")); (s [(SSym (s2l "iter")); (s [(SSym (s2l "call")); (s [(SSym (s2l "call")); SNil; (SSym (s2l "foo"))]); (SSym (s2l "bar"))]); (s [(SSym (s2l "args")); (SSym (s2l "y"))]); (s [(SSym (s2l "lvar")); (SSym (s2l "y"))])])]));
  (1386, (s2l "bar { |*| 1 }"), Some (s [(SSym (s2l "iter")); (s [(SSym (s2l "call")); SNil; (SSym (s2l "bar"))]); (s [(SSym (s2l "args")); (SSym (s2l "*"))]); (s [(SSym (s2l "lit")); (SInt (1))])]));
  (1387, (s2l "bar { |*x| x }"), Some (s [(SSym (s2l "iter")); (s [(SSym (s2l "call")); SNil; (SSym (s2l "bar"))]); (s [(SSym (s2l "args")); (SSym (s2l "*x"))]); (s [(SSym (s2l "lvar")); (SSym (s2l "x"))])]))].
Example parser_test_6_passes : forallb passes parser_test_6 = true.
Proof. vm_compute. reflexivity. Qed.

(** /repo/test/parser_test.rb, lines 1388-1576. *)
Definition parser_test_7 : list (N * str * option sexp) := [
  (1388, (s2l "bar { |x, *y, z| y }"), Some (s [(SSym (s2l "iter")); (s [(SSym (s2l "call")); SNil; (SSym (s2l "bar"))]); (s [(SSym (s2l "args")); (SSym (s2l "x")); (SSym (s2l "*y")); (SSym (s2l "z"))]); (s [(SSym (s2l "lvar")); (SSym (s2l "y"))])]));
  (1389, (s2l "bar { |a = nil, b = foo, c = FOO| b }"), Some (s [(SSym (s2l "iter")); (s [(SSym (s2l "call")); SNil; (SSym (s2l "bar"))]); (s [(SSym (s2l "args")); (s [(SSym (s2l "lasgn")); (SSym (s2l "a")); (s [(SSym (s2l "nil"))])]); (s [(SSym (s2l "lasgn")); (SSym (s2l "b")); (s [(SSym (s2l "call")); SNil; (SSym (s2l "foo"))])]); (s [(SSym (s2l "lasgn")); (SSym (s2l "c")); (s [(SSym (s2l "const")); (SSym (s2l "FOO"))])])]); (s [(SSym (s2l "lvar")); (SSym (s2l "b"))])]));
  (1390, (s2l "bar { |a, b: :c, d:| a }"), Some (s [(SSym (s2l "iter")); (s [(SSym (s2l "call")); SNil; (SSym (s2l "bar"))]); (s [(SSym (s2l "args")); (SSym (s2l "a")); (s [(SSym (s2l "kwarg")); (SSym (s2l "b")); (s [(SSym (s2l "lit")); (SSym (s2l "c"))])]); (s [(SSym (s2l "kwarg")); (SSym (s2l "d"))])]); (s [(SSym (s2l "lvar")); (SSym (s2l "a"))])]));
  (1391, (s2l "get 'foo', bar { 'baz' }"), Some (s [(SSym (s2l "call")); SNil; (SSym (s2l "get")); (s [(SSym (s2l "str")); (SStr (s2l "foo"))]); (s [(SSym (s2l "iter")); (s [(SSym (s2l "call")); SNil; (SSym (s2l "bar"))]); (SInt (0)); (s [(SSym (s2l "str")); (SStr (s2l "baz"))])])]));
  (1392, [103; 101; 116; 32; 39; 102; 111; 111; 39; 44; 32; 98; 97; 114; 32; 100; 111; 10; 39; 98; 97; 122; 39; 10; 101; 110; 100]%N, Some (s [(SSym (s2l "iter")); (s [(SSym (s2l "call")); SNil; (SSym (s2l "get")); (s [(SSym (s2l "str")); (SStr (s2l "foo"))]); (s [(SSym (s2l "call")); SNil; (SSym (s2l "bar"))])]); (SInt (0)); (s [(SSym (s2l "str")); (SStr (s2l "baz"))])]));
  (1393, [102; 111; 111; 49; 32; 61; 32; 102; 111; 111; 32; 100; 111; 10; 39; 102; 111; 111; 39; 10; 101; 110; 100]%N, Some (s [(SSym (s2l "lasgn")); (SSym (s2l "foo1")); (s [(SSym (s2l "iter")); (s [(SSym (s2l "call")); SNil; (SSym (s2l "foo"))]); (SInt (0)); (s [(SSym (s2l "str")); (SStr (s2l "foo"))])])]));
  (1394, [64; 102; 111; 111; 32; 61; 32; 102; 111; 111; 32; 100; 111; 10; 39; 102; 111; 111; 39; 10; 101; 110; 100]%N, Some (s [(SSym (s2l "iasgn")); (SSym (s2l "@foo")); (s [(SSym (s2l "iter")); (s [(SSym (s2l "call")); SNil; (SSym (s2l "foo"))]); (SInt (0)); (s [(SSym (s2l "str")); (SStr (s2l "foo"))])])]));
  (1395, [64; 102; 111; 111; 32; 124; 124; 61; 32; 102; 111; 111; 32; 100; 111; 10; 39; 102; 111; 111; 39; 10; 101; 110; 100]%N, Some (s [(SSym (s2l "op_asgn_or")); (s [(SSym (s2l "ivar")); (SSym (s2l "@foo"))]); (s [(SSym (s2l "iasgn")); (SSym (s2l "@foo")); (s [(SSym (s2l "iter")); (s [(SSym (s2l "call")); SNil; (SSym (s2l "foo"))]); (SInt (0)); (s [(SSym (s2l "str")); (SStr (s2l "foo"))])])])]));
  (1396, [103; 101; 116; 32; 39; 102; 111; 111; 39; 44; 32; 98; 97; 114; 32; 100; 111; 32; 39; 98; 97; 122; 39; 10; 32; 101; 110; 100]%N, Some (s [(SSym (s2l "iter")); (s [(SSym (s2l "call")); SNil; (SSym (s2l "get")); (s [(SSym (s2l "str")); (SStr (s2l "foo"))]); (s [(SSym (s2l "call")); SNil; (SSym (s2l "bar"))])]); (SInt (0)); (s [(SSym (s2l "str")); (SStr (s2l "baz"))])]));
  (1397, [103; 101; 116; 32; 39; 102; 111; 111; 39; 44; 32; 98; 97; 114; 32; 100; 111; 10; 32; 39; 98; 97; 122; 39; 32; 101; 110; 100]%N, Some (s [(SSym (s2l "iter")); (s [(SSym (s2l "call")); SNil; (SSym (s2l "get")); (s [(SSym (s2l "str")); (SStr (s2l "foo"))]); (s [(SSym (s2l "call")); SNil; (SSym (s2l "bar"))])]); (SInt (0)); (s [(SSym (s2l "str")); (SStr (s2l "baz"))])]));
  (1398, (s2l "get 'foo', bar do 'baz' end"), Some (s [(SSym (s2l "iter")); (s [(SSym (s2l "call")); SNil; (SSym (s2l "get")); (s [(SSym (s2l "str")); (SStr (s2l "foo"))]); (s [(SSym (s2l "call")); SNil; (SSym (s2l "bar"))])]); (SInt (0)); (s [(SSym (s2l "str")); (SStr (s2l "baz"))])]));
  (1399, (s2l "foo += bar { |x| x }"), Some (s [(SSym (s2l "lasgn")); (SSym (s2l "foo")); (s [(SSym (s2l "call")); (s [(SSym (s2l "lvar")); (SSym (s2l "foo"))]); (SSym (s2l "+")); (s [(SSym (s2l "iter")); (s [(SSym (s2l "call")); SNil; (SSym (s2l "bar"))]); (s [(SSym (s2l "args")); (SSym (s2l "x"))]); (s [(SSym (s2l "lvar")); (SSym (s2l "x"))])])])]));
  (1400, (s2l "bar { |a, | a }"), Some (s [(SSym (s2l "iter")); (s [(SSym (s2l "call")); SNil; (SSym (s2l "bar"))]); (s [(SSym (s2l "args")); (SSym (s2l "a")); SNil]); (s [(SSym (s2l "lvar")); (SSym (s2l "a"))])]));
  (1401, (s2l "foo bar { 1 }"), Some (s [(SSym (s2l "call")); SNil; (SSym (s2l "foo")); (s [(SSym (s2l "iter")); (s [(SSym (s2l "call")); SNil; (SSym (s2l "bar"))]); (SInt (0)); (s [(SSym (s2l "lit")); (SInt (1))])])]));
  (1402, (s2l "foo == bar { 1 }"), Some (s [(SSym (s2l "call")); (s [(SSym (s2l "call")); SNil; (SSym (s2l "foo"))]); (SSym (s2l "==")); (s [(SSym (s2l "iter")); (s [(SSym (s2l "call")); SNil; (SSym (s2l "bar"))]); (SInt (0)); (s [(SSym (s2l "lit")); (SInt (1))])])]));
  (1403, (s2l "foo { 1 } == bar { 2 }"), Some (s [(SSym (s2l "call")); (s [(SSym (s2l "iter")); (s [(SSym (s2l "call")); SNil; (SSym (s2l "foo"))]); (SInt (0)); (s [(SSym (s2l "lit")); (SInt (1))])]); (SSym (s2l "==")); (s [(SSym (s2l "iter")); (s [(SSym (s2l "call")); SNil; (SSym (s2l "bar"))]); (SInt (0)); (s [(SSym (s2l "lit")); (SInt (2))])])]));
  (1404, [102; 111; 111; 32; 98; 97; 114; 32; 100; 111; 10; 32; 49; 10; 32; 101; 110; 100]%N, Some (s [(SSym (s2l "iter")); (s [(SSym (s2l "call")); SNil; (SSym (s2l "foo")); (s [(SSym (s2l "call")); SNil; (SSym (s2l "bar"))])]); (SInt (0)); (s [(SSym (s2l "lit")); (SInt (1))])]));
  (1405, [102; 111; 111; 32; 98; 97; 114; 44; 32; 98; 97; 122; 32; 100; 111; 10; 32; 49; 10; 32; 101; 110; 100]%N, Some (s [(SSym (s2l "iter")); (s [(SSym (s2l "call")); SNil; (SSym (s2l "foo")); (s [(SSym (s2l "call")); SNil; (SSym (s2l "bar"))]); (s [(SSym (s2l "call")); SNil; (SSym (s2l "baz"))])]); (SInt (0)); (s [(SSym (s2l "lit")); (SInt (1))])]));
  (1406, [102; 111; 111; 32; 61; 61; 32; 98; 97; 114; 32; 100; 111; 10; 32; 49; 10; 32; 101; 110; 100]%N, Some (s [(SSym (s2l "call")); (s [(SSym (s2l "call")); SNil; (SSym (s2l "foo"))]); (SSym (s2l "==")); (s [(SSym (s2l "iter")); (s [(SSym (s2l "call")); SNil; (SSym (s2l "bar"))]); (SInt (0)); (s [(SSym (s2l "lit")); (SInt (1))])])]));
  (1407, [102; 111; 111; 32; 123; 32; 49; 32; 125; 32; 61; 61; 32; 98; 97; 114; 32; 100; 111; 10; 32; 50; 32; 10; 32; 101; 110; 100]%N, Some (s [(SSym (s2l "call")); (s [(SSym (s2l "iter")); (s [(SSym (s2l "call")); SNil; (SSym (s2l "foo"))]); (SInt (0)); (s [(SSym (s2l "lit")); (SInt (1))])]); (SSym (s2l "==")); (s [(SSym (s2l "iter")); (s [(SSym (s2l "call")); SNil; (SSym (s2l "bar"))]); (SInt (0)); (s [(SSym (s2l "lit")); (SInt (2))])])]));
  (1408, [102; 111; 111; 32; 42; 32; 98; 97; 114; 32; 100; 111; 10; 32; 49; 10; 32; 101; 110; 100]%N, Some (s [(SSym (s2l "call")); (s [(SSym (s2l "call")); SNil; (SSym (s2l "foo"))]); (SSym (s2l "*")); (s [(SSym (s2l "iter")); (s [(SSym (s2l "call")); SNil; (SSym (s2l "bar"))]); (SInt (0)); (s [(SSym (s2l "lit")); (SInt (1))])])]));
  (1409, [102; 111; 111; 32; 43; 32; 98; 97; 114; 32; 100; 111; 10; 32; 49; 10; 32; 101; 110; 100]%N, Some (s [(SSym (s2l "call")); (s [(SSym (s2l "call")); SNil; (SSym (s2l "foo"))]); (SSym (s2l "+")); (s [(SSym (s2l "iter")); (s [(SSym (s2l "call")); SNil; (SSym (s2l "bar"))]); (SInt (0)); (s [(SSym (s2l "lit")); (SInt (1))])])]));
  (1410, [102; 111; 111; 32; 43; 61; 32; 98; 97; 114; 32; 100; 111; 10; 32; 49; 10; 32; 101; 110; 100]%N, Some (s [(SSym (s2l "lasgn")); (SSym (s2l "foo")); (s [(SSym (s2l "call")); (s [(SSym (s2l "lvar")); (SSym (s2l "foo"))]); (SSym (s2l "+")); (s [(SSym (s2l "iter")); (s [(SSym (s2l "call")); SNil; (SSym (s2l "bar"))]); (SInt (0)); (s [(SSym (s2l "lit")); (SInt (1))])])])]));
  (1411, [102; 111; 111; 32; 124; 124; 32; 98; 97; 114; 32; 100; 111; 10; 32; 49; 10; 32; 101; 110; 100]%N, Some (s [(SSym (s2l "or")); (s [(SSym (s2l "call")); SNil; (SSym (s2l "foo"))]); (s [(SSym (s2l "iter")); (s [(SSym (s2l "call")); SNil; (SSym (s2l "bar"))]); (SInt (0)); (s [(SSym (s2l "lit")); (SInt (1))])])]));
  (1412, [102; 111; 111; 32; 38; 38; 32; 98; 97; 114; 32; 100; 111; 10; 32; 49; 10; 32; 101; 110; 100]%N, Some (s [(SSym (s2l "and")); (s [(SSym (s2l "call")); SNil; (SSym (s2l "foo"))]); (s [(SSym (s2l "iter")); (s [(SSym (s2l "call")); SNil; (SSym (s2l "bar"))]); (SInt (0)); (s [(SSym (s2l "lit")); (SInt (1))])])]));
  (1413, [102; 111; 111; 32; 49; 32; 38; 38; 32; 98; 97; 114; 32; 100; 111; 10; 32; 49; 10; 32; 101; 110; 100]%N, Some (s [(SSym (s2l "iter")); (s [(SSym (s2l "call")); SNil; (SSym (s2l "foo")); (s [(SSym (s2l "and")); (s [(SSym (s2l "lit")); (SInt (1))]); (s [(SSym (s2l "call")); SNil; (SSym (s2l "bar"))])])]); (SInt (0)); (s [(SSym (s2l "lit")); (SInt (1))])]));
  (1414, [102; 111; 111; 32; 49; 44; 32; 50; 32; 124; 124; 32; 98; 97; 114; 32; 100; 111; 10; 32; 49; 10; 32; 101; 110; 100]%N, Some (s [(SSym (s2l "iter")); (s [(SSym (s2l "call")); SNil; (SSym (s2l "foo")); (s [(SSym (s2l "lit")); (SInt (1))]); (s [(SSym (s2l "or")); (s [(SSym (s2l "lit")); (SInt (2))]); (s [(SSym (s2l "call")); SNil; (SSym (s2l "bar"))])])]); (SInt (0)); (s [(SSym (s2l "lit")); (SInt (1))])]));
  (1415, [110; 111; 116; 32; 102; 111; 111; 32; 100; 111; 10; 32; 49; 10; 32; 101; 110; 100]%N, Some (s [(SSym (s2l "call")); (s [(SSym (s2l "iter")); (s [(SSym (s2l "call")); SNil; (SSym (s2l "foo"))]); (SInt (0)); (s [(SSym (s2l "lit")); (SInt (1))])]); (SSym (s2l "!"))]));
  (1416, [102; 111; 111; 32; 49; 32; 60; 32; 50; 32; 100; 111; 10; 51; 10; 101; 110; 100]%N, Some (s [(SSym (s2l "iter")); (s [(SSym (s2l "call")); SNil; (SSym (s2l "foo")); (s [(SSym (s2l "call")); (s [(SSym (s2l "lit")); (SInt (1))]); (SSym (s2l "<")); (s [(SSym (s2l "lit")); (SInt (2))])])]); (SInt (0)); (s [(SSym (s2l "lit")); (SInt (3))])]));
  (1417, (s2l "-> *a, b { 1 }"), Some (s [(SSym (s2l "iter")); (s [(SSym (s2l "lambda"))]); (s [(SSym (s2l "args")); (SSym (s2l "*a")); (SSym (s2l "b"))]); (s [(SSym (s2l "lit")); (SInt (1))])]));
  (1418, (s2l "-> **foo { 1 }"), Some (s [(SSym (s2l "iter")); (s [(SSym (s2l "lambda"))]); (s [(SSym (s2l "args")); (SSym (s2l "**foo"))]); (s [(SSym (s2l "lit")); (SInt (1))])]));
  (1419, (s2l "-> &foo { 1 }"), Some (s [(SSym (s2l "iter")); (s [(SSym (s2l "lambda"))]); (s [(SSym (s2l "args")); (SSym (s2l "&foo"))]); (s [(SSym (s2l "lit")); (SInt (1))])]));
  (1420, (s2l "-> foo = bar { 1 }"), Some (s [(SSym (s2l "iter")); (s [(SSym (s2l "lambda"))]); (s [(SSym (s2l "args")); (s [(SSym (s2l "lasgn")); (SSym (s2l "foo")); (s [(SSym (s2l "call")); SNil; (SSym (s2l "bar"))])])]); (s [(SSym (s2l "lit")); (SInt (1))])]));
  (1421, (s2l "-> foo: bar { 1 }"), Some (s [(SSym (s2l "iter")); (s [(SSym (s2l "lambda"))]); (s [(SSym (s2l "args")); (s [(SSym (s2l "kwarg")); (SSym (s2l "foo")); (s [(SSym (s2l "call")); SNil; (SSym (s2l "bar"))])])]); (s [(SSym (s2l "lit")); (SInt (1))])]));
  (1422, (s2l "-> foo: { 1 }"), Some (s [(SSym (s2l "iter")); (s [(SSym (s2l "lambda"))]); (s [(SSym (s2l "args")); (s [(SSym (s2l "kwarg")); (SSym (s2l "foo"))])]); (s [(SSym (s2l "lit")); (SInt (1))])]));
  (1423, (s2l "!foo { 1 }"), Some (s [(SSym (s2l "call")); (s [(SSym (s2l "iter")); (s [(SSym (s2l "call")); SNil; (SSym (s2l "foo"))]); (SInt (0)); (s [(SSym (s2l "lit")); (SInt (1))])]); (SSym (s2l "!"))]));
  (1424, (s2l "yield foo(arg) do |bar| end"), Some (s [(SSym (s2l "yield")); (s [(SSym (s2l "iter")); (s [(SSym (s2l "call")); SNil; (SSym (s2l "foo")); (s [(SSym (s2l "call")); SNil; (SSym (s2l "arg"))])]); (s [(SSym (s2l "args")); (SSym (s2l "bar"))])])]));
  (1425, (s2l "foo(yield(bar)) do |bar| end"), Some (s [(SSym (s2l "iter")); (s [(SSym (s2l "call")); SNil; (SSym (s2l "foo")); (s [(SSym (s2l "yield")); (s [(SSym (s2l "call")); SNil; (SSym (s2l "bar"))])])]); (s [(SSym (s2l "args")); (SSym (s2l "bar"))])]));
  (1426, (s2l "yield foo arg do |bar| end"), Some (s [(SSym (s2l "yield")); (s [(SSym (s2l "iter")); (s [(SSym (s2l "call")); SNil; (SSym (s2l "foo")); (s [(SSym (s2l "call")); SNil; (SSym (s2l "arg"))])]); (s [(SSym (s2l "args")); (SSym (s2l "bar"))])])]));
  (1427, (s2l "foo yield bar do |bar| end"), Some (s [(SSym (s2l "iter")); (s [(SSym (s2l "call")); SNil; (SSym (s2l "foo")); (s [(SSym (s2l "yield")); (s [(SSym (s2l "call")); SNil; (SSym (s2l "bar"))])])]); (s [(SSym (s2l "args")); (SSym (s2l "bar"))])]));
  (1428, (s2l "f ->() { g do end }"), Some (s [(SSym (s2l "call")); SNil; (SSym (s2l "f")); (s [(SSym (s2l "iter")); (s [(SSym (s2l "lambda"))]); (s [(SSym (s2l "args"))]); (s [(SSym (s2l "iter")); (s [(SSym (s2l "call")); SNil; (SSym (s2l "g"))]); (SInt (0))])])]));
  (1429, (s2l "a [ nil, b do end ]"), Some (s [(SSym (s2l "call")); SNil; (SSym (s2l "a")); (s [(SSym (s2l "array")); (s [(SSym (s2l "nil"))]); (s [(SSym (s2l "iter")); (s [(SSym (s2l "call")); SNil; (SSym (s2l "b"))]); (SInt (0))])])]));
  (1430, [112; 114; 105; 118; 97; 116; 101; 32; 100; 101; 102; 32; 102; 10; 97; 46; 98; 32; 100; 111; 32; 101; 110; 100; 10; 101; 110; 100]%N, Some (s [(SSym (s2l "call")); SNil; (SSym (s2l "private")); (s [(SSym (s2l "defn")); (SSym (s2l "f")); (s [(SSym (s2l "args"))]); (s [(SSym (s2l "iter")); (s [(SSym (s2l "call")); (s [(SSym (s2l "call")); SNil; (SSym (s2l "a"))]); (SSym (s2l "b"))]); (SInt (0))])])]));
  (1431, [102; 111; 111; 32; 100; 101; 102; 32; 98; 97; 114; 10; 32; 120; 46; 121; 32; 100; 111; 59; 32; 101; 110; 100; 10; 32; 101; 110; 100]%N, Some (s [(SSym (s2l "call")); SNil; (SSym (s2l "foo")); (s [(SSym (s2l "defn")); (SSym (s2l "bar")); (s [(SSym (s2l "args"))]); (s [(SSym (s2l "iter")); (s [(SSym (s2l "call")); (s [(SSym (s2l "call")); SNil; (SSym (s2l "x"))]); (SSym (s2l "y"))]); (SInt (0))])])]));
  (1432, [91; 49; 44; 10; 102; 111; 111; 32; 100; 111; 59; 32; 101; 110; 100; 44; 10; 32; 51; 93]%N, Some (s [(SSym (s2l "array")); (s [(SSym (s2l "lit")); (SInt (1))]); (s [(SSym (s2l "iter")); (s [(SSym (s2l "call")); SNil; (SSym (s2l "foo"))]); (SInt (0))]); (s [(SSym (s2l "lit")); (SInt (3))])]));
  (1433, [102; 111; 111; 40; 49; 44; 10; 98; 97; 114; 32; 100; 111; 59; 32; 101; 110; 100; 44; 10; 32; 51; 41]%N, Some (s [(SSym (s2l "call")); SNil; (SSym (s2l "foo")); (s [(SSym (s2l "lit")); (SInt (1))]); (s [(SSym (s2l "iter")); (s [(SSym (s2l "call")); SNil; (SSym (s2l "bar"))]); (SInt (0))]); (s [(SSym (s2l "lit")); (SInt (3))])]));
  (1434, [102; 111; 111; 32; 100; 111; 10; 98; 97; 114; 32; 98; 97; 122; 40; 91; 10; 93; 41; 10; 101; 110; 100; 10; 102; 111; 111; 32; 100; 111; 10; 101; 110; 100]%N, Some (s [(SSym (s2l "block")); (s [(SSym (s2l "iter")); (s [(SSym (s2l "call")); SNil; (SSym (s2l "foo"))]); (SInt (0)); (s [(SSym (s2l "call")); SNil; (SSym (s2l "bar")); (s [(SSym (s2l "call")); SNil; (SSym (s2l "baz")); (s [(SSym (s2l "array"))])])])]); (s [(SSym (s2l "iter")); (s [(SSym (s2l "call")); SNil; (SSym (s2l "foo"))]); (SInt (0))])]));
  (1435, [102; 111; 111; 32; 100; 111; 10; 98; 97; 114; 32; 98; 97; 122; 40; 91; 10; 91; 32; 49; 44; 32; 50; 32; 93; 44; 10; 93; 41; 10; 101; 110; 100; 10; 102; 111; 111; 32; 100; 111; 10; 101; 110; 100]%N, Some (s [(SSym (s2l "block")); (s [(SSym (s2l "iter")); (s [(SSym (s2l "call")); SNil; (SSym (s2l "foo"))]); (SInt (0)); (s [(SSym (s2l "call")); SNil; (SSym (s2l "bar")); (s [(SSym (s2l "call")); SNil; (SSym (s2l "baz")); (s [(SSym (s2l "array")); (s [(SSym (s2l "array")); (s [(SSym (s2l "lit")); (SInt (1))]); (s [(SSym (s2l "lit")); (SInt (2))])])])])])]); (s [(SSym (s2l "iter")); (s [(SSym (s2l "call")); SNil; (SSym (s2l "foo"))]); (SInt (0))])]));
  (1436, (s2l "foo :a { 1 }"), None);
  (1437, (s2l "1 < 2 { 1 }"), None);
  (1438, (s2l "foo 1 < 2 { 3 }"), None);
  (1439, (s2l "foo 1 | 2 { 3 }"), None);
  (1440, (s2l "foo 1 & 2 { 3 }"), None);
  (1441, (s2l "foo 1 << 2 { 3 }"), None);
  (1442, (s2l "foo 1 + 2 { 3 }"), None);
  (1443, (s2l "foo 1 * 2 { 3 }"), None);
  (1444, (s2l "foo 1 ** 2 { 3 }"), None);
  (1445, (s2l "foo ~1 { 3 }"), None);
  (1446, (s2l "m.a 1, &b do end"), None);
  (1450, (s2l "foo { _1; _2; _3 }"), Some (s [(SSym (s2l "iter")); (s [(SSym (s2l "call")); SNil; (SSym (s2l "foo"))]); (SInt (0)); (s [(SSym (s2l "block")); (s [(SSym (s2l "call")); SNil; (SSym (s2l "_1"))]); (s [(SSym (s2l "call")); SNil; (SSym (s2l "_2"))]); (s [(SSym (s2l "call")); SNil; (SSym (s2l "_3"))])])]));
  (1451, (s2l "foo { |x| _1; _2; _3 }"), Some (s [(SSym (s2l "iter")); (s [(SSym (s2l "call")); SNil; (SSym (s2l "foo"))]); (s [(SSym (s2l "args")); (SSym (s2l "x"))]); (s [(SSym (s2l "block")); (s [(SSym (s2l "call")); SNil; (SSym (s2l "_1"))]); (s [(SSym (s2l "call")); SNil; (SSym (s2l "_2"))]); (s [(SSym (s2l "call")); SNil; (SSym (s2l "_3"))])])]));
  (1452, (s2l "-> { _1; _2; _3 }"), Some (s [(SSym (s2l "iter")); (s [(SSym (s2l "lambda"))]); (SInt (0)); (s [(SSym (s2l "block")); (s [(SSym (s2l "call")); SNil; (SSym (s2l "_1"))]); (s [(SSym (s2l "call")); SNil; (SSym (s2l "_2"))]); (s [(SSym (s2l "call")); SNil; (SSym (s2l "_3"))])])]));
  (1456, (s2l "map(&:foo)"), Some (s [(SSym (s2l "call")); SNil; (SSym (s2l "map")); (s [(SSym (s2l "block_pass")); (s [(SSym (s2l "lit")); (SSym (s2l "foo"))])])]));
  (1457, (s2l "map(&myblock)"), Some (s [(SSym (s2l "call")); SNil; (SSym (s2l "map")); (s [(SSym (s2l "block_pass")); (s [(SSym (s2l "call")); SNil; (SSym (s2l "myblock"))])])]));
  (1458, (s2l "map(&nil)"), Some (s [(SSym (s2l "call")); SNil; (SSym (s2l "map")); (s [(SSym (s2l "block_pass")); (s [(SSym (s2l "nil"))])])]));
  (1459, (s2l "map(&5.method(:+))"), Some (s [(SSym (s2l "call")); SNil; (SSym (s2l "map")); (s [(SSym (s2l "block_pass")); (s [(SSym (s2l "call")); (s [(SSym (s2l "lit")); (SInt (5))]); (SSym (s2l "method")); (s [(SSym (s2l "lit")); (SSym (s2l "+"))])])])]));
  (1463, (s2l "break"), Some (s [(SSym (s2l "break"))]));
  (1464, (s2l "break()"), Some (s [(SSym (s2l "break")); (s [(SSym (s2l "nil"))])]));
  (1465, (s2l "break 1"), Some (s [(SSym (s2l "break")); (s [(SSym (s2l "lit")); (SInt (1))])]));
  (1466, (s2l "break 1, 2"), Some (s [(SSym (s2l "break")); (s [(SSym (s2l "array")); (s [(SSym (s2l "lit")); (SInt (1))]); (s [(SSym (s2l "lit")); (SInt (2))])])]));
  (1467, (s2l "break([1, 2])"), Some (s [(SSym (s2l "break")); (s [(SSym (s2l "array")); (s [(SSym (s2l "lit")); (SInt (1))]); (s [(SSym (s2l "lit")); (SInt (2))])])]));
  (1468, (s2l "break if true"), Some (s [(SSym (s2l "if")); (s [(SSym (s2l "true"))]); (s [(SSym (s2l "break"))]); SNil]));
  (1469, (s2l "foo { break }"), Some (s [(SSym (s2l "iter")); (s [(SSym (s2l "call")); SNil; (SSym (s2l "foo"))]); (SInt (0)); (s [(SSym (s2l "break"))])]));
  (1470, (s2l "next"), Some (s [(SSym (s2l "next"))]));
  (1471, (s2l "next()"), Some (s [(SSym (s2l "next")); (s [(SSym (s2l "nil"))])]));
  (1472, (s2l "next 1"), Some (s [(SSym (s2l "next")); (s [(SSym (s2l "lit")); (SInt (1))])]));
  (1473, (s2l "next 1, 2"), Some (s [(SSym (s2l "next")); (s [(SSym (s2l "array")); (s [(SSym (s2l "lit")); (SInt (1))]); (s [(SSym (s2l "lit")); (SInt (2))])])]));
  (1474, (s2l "next([1, 2])"), Some (s [(SSym (s2l "next")); (s [(SSym (s2l "array")); (s [(SSym (s2l "lit")); (SInt (1))]); (s [(SSym (s2l "lit")); (SInt (2))])])]));
  (1475, (s2l "next if true"), Some (s [(SSym (s2l "if")); (s [(SSym (s2l "true"))]); (s [(SSym (s2l "next"))]); SNil]));
  (1476, (s2l "foo { next }"), Some (s [(SSym (s2l "iter")); (s [(SSym (s2l "call")); SNil; (SSym (s2l "foo"))]); (SInt (0)); (s [(SSym (s2l "next"))])]));
  (1477, (s2l "super"), Some (s [(SSym (s2l "zsuper"))]));
  (1478, (s2l "super()"), Some (s [(SSym (s2l "super"))]));
  (1479, (s2l "super 1"), Some (s [(SSym (s2l "super")); (s [(SSym (s2l "lit")); (SInt (1))])]));
  (1480, (s2l "super 1, 2"), Some (s [(SSym (s2l "super")); (s [(SSym (s2l "lit")); (SInt (1))]); (s [(SSym (s2l "lit")); (SInt (2))])]));
  (1481, (s2l "super a: b"), Some (s [(SSym (s2l "super")); (s [(SSym (s2l "bare_hash")); (s [(SSym (s2l "lit")); (SSym (s2l "a"))]); (s [(SSym (s2l "call")); SNil; (SSym (s2l "b"))])])]));
  (1482, (s2l "super([1, 2])"), Some (s [(SSym (s2l "super")); (s [(SSym (s2l "array")); (s [(SSym (s2l "lit")); (SInt (1))]); (s [(SSym (s2l "lit")); (SInt (2))])])]));
  (1483, (s2l "super if true"), Some (s [(SSym (s2l "if")); (s [(SSym (s2l "true"))]); (s [(SSym (s2l "zsuper"))]); SNil]));
  (1484, (s2l "foo { super }"), Some (s [(SSym (s2l "iter")); (s [(SSym (s2l "call")); SNil; (SSym (s2l "foo"))]); (SInt (0)); (s [(SSym (s2l "zsuper"))])]));
  (1485, (s2l "yield"), Some (s [(SSym (s2l "yield"))]));
  (1486, (s2l "yield()"), Some (s [(SSym (s2l "yield"))]));
  (1487, (s2l "yield 1"), Some (s [(SSym (s2l "yield")); (s [(SSym (s2l "lit")); (SInt (1))])]));
  (1488, (s2l "yield 1, 2"), Some (s [(SSym (s2l "yield")); (s [(SSym (s2l "lit")); (SInt (1))]); (s [(SSym (s2l "lit")); (SInt (2))])]));
  (1489, (s2l "yield(1, 2)"), Some (s [(SSym (s2l "yield")); (s [(SSym (s2l "lit")); (SInt (1))]); (s [(SSym (s2l "lit")); (SInt (2))])]));
  (1490, (s2l "yield if true"), Some (s [(SSym (s2l "if")); (s [(SSym (s2l "true"))]); (s [(SSym (s2l "yield"))]); SNil]));
  (1491, (s2l "x += yield y"), Some (s [(SSym (s2l "lasgn")); (SSym (s2l "x")); (s [(SSym (s2l "call")); (s [(SSym (s2l "lvar")); (SSym (s2l "x"))]); (SSym (s2l "+")); (s [(SSym (s2l "yield")); (s [(SSym (s2l "call")); SNil; (SSym (s2l "y"))])])])]));
  (1492, (s2l "while yield == :foo; end"), Some (s [(SSym (s2l "while")); (s [(SSym (s2l "call")); (s [(SSym (s2l "yield"))]); (SSym (s2l "==")); (s [(SSym (s2l "lit")); (SSym (s2l "foo"))])]); SNil; STrue]));
  (1493, (s2l "foo { yield }"), Some (s [(SSym (s2l "iter")); (s [(SSym (s2l "call")); SNil; (SSym (s2l "foo"))]); (SInt (0)); (s [(SSym (s2l "yield"))])]));
  (1497, (s2l "self"), Some (s [(SSym (s2l "self"))]));
  (1502, (s2l "__LINE__"), Some (s [(SSym (s2l "lit")); (SInt (1))]));
  (1503, (s2l "__dir__"), Some (s [(SSym (s2l "call")); SNil; (SSym (s2l "__dir__"))]));
  (1507, (s2l "def foo(*args); end"), Some (s [(SSym (s2l "defn")); (SSym (s2l "foo")); (s [(SSym (s2l "args")); (SSym (s2l "*args"))]); (s [(SSym (s2l "nil"))])]));
  (1508, (s2l "def foo *args; end"), Some (s [(SSym (s2l "defn")); (SSym (s2l "foo")); (s [(SSym (s2l "args")); (SSym (s2l "*args"))]); (s [(SSym (s2l "nil"))])]));
  (1509, (s2l "foo(*args)"), Some (s [(SSym (s2l "call")); SNil; (SSym (s2l "foo")); (s [(SSym (s2l "splat")); (s [(SSym (s2l "call")); SNil; (SSym (s2l "args"))])])]));
  (1513, (s2l "def foo(**kwargs); end"), Some (s [(SSym (s2l "defn")); (SSym (s2l "foo")); (s [(SSym (s2l "args")); (SSym (s2l "**kwargs"))]); (s [(SSym (s2l "nil"))])]));
  (1514, (s2l "def foo(*args, **kwargs); end"), Some (s [(SSym (s2l "defn")); (SSym (s2l "foo")); (s [(SSym (s2l "args")); (SSym (s2l "*args")); (SSym (s2l "**kwargs"))]); (s [(SSym (s2l "nil"))])]));
  (1515, (s2l "def foo **kwargs; end"), Some (s [(SSym (s2l "defn")); (SSym (s2l "foo")); (s [(SSym (s2l "args")); (SSym (s2l "**kwargs"))]); (s [(SSym (s2l "nil"))])]));
  (1516, (s2l "foo(**kwargs)"), Some (s [(SSym (s2l "call")); SNil; (SSym (s2l "foo")); (s [(SSym (s2l "bare_hash")); (s [(SSym (s2l "kwsplat")); (s [(SSym (s2l "call")); SNil; (SSym (s2l "kwargs"))])])])]));
  (1517, (s2l "foo(a, **kwargs)"), Some (s [(SSym (s2l "call")); SNil; (SSym (s2l "foo")); (s [(SSym (s2l "call")); SNil; (SSym (s2l "a"))]); (s [(SSym (s2l "bare_hash")); (s [(SSym (s2l "kwsplat")); (s [(SSym (s2l "call")); SNil; (SSym (s2l "kwargs"))])])])]));
  (1518, (s2l "foo(**kwargs, a: 2)"), Some (s [(SSym (s2l "call")); SNil; (SSym (s2l "foo")); (s [(SSym (s2l "bare_hash")); (s [(SSym (s2l "kwsplat")); (s [(SSym (s2l "call")); SNil; (SSym (s2l "kwargs"))])]); (s [(SSym (s2l "lit")); (SSym (s2l "a"))]); (s [(SSym (s2l "lit")); (SInt (2))])])]));
  (1519, (s2l "foo(a: 1, **kwargs, b: 2)"), Some (s [(SSym (s2l "call")); SNil; (SSym (s2l "foo")); (s [(SSym (s2l "bare_hash")); (s [(SSym (s2l "lit")); (SSym (s2l "a"))]); (s [(SSym (s2l "lit")); (SInt (1))]); (s [(SSym (s2l "kwsplat")); (s [(SSym (s2l "call")); SNil; (SSym (s2l "kwargs"))])]); (s [(SSym (s2l "lit")); (SSym (s2l "b"))]); (s [(SSym (s2l "lit")); (SInt (2))])])]));
  (1520, (s2l "foo(a: :b, **kwargs)"), Some (s [(SSym (s2l "call")); SNil; (SSym (s2l "foo")); (s [(SSym (s2l "bare_hash")); (s [(SSym (s2l "lit")); (SSym (s2l "a"))]); (s [(SSym (s2l "lit")); (SSym (s2l "b"))]); (s [(SSym (s2l "kwsplat")); (s [(SSym (s2l "call")); SNil; (SSym (s2l "kwargs"))])])])]));
  (1521, (s2l "foo { |nil| }"), None);
  (1522, (s2l "foo { |*nil| }"), None);
  (1523, (s2l "foo { |**nil| }"), Some (s [(SSym (s2l "iter")); (s [(SSym (s2l "call")); SNil; (SSym (s2l "foo"))]); (s [(SSym (s2l "args")); (SSym (s2l "**nil"))])]));
  (1527, (s2l "-> { puts 1 }"), Some (s [(SSym (s2l "iter")); (s [(SSym (s2l "lambda"))]); (SInt (0)); (s [(SSym (s2l "call")); SNil; (SSym (s2l "puts")); (s [(SSym (s2l "lit")); (SInt (1))])])]));
  (1528, (s2l "-> () { puts 1 }"), Some (s [(SSym (s2l "iter")); (s [(SSym (s2l "lambda"))]); (s [(SSym (s2l "args"))]); (s [(SSym (s2l "call")); SNil; (SSym (s2l "puts")); (s [(SSym (s2l "lit")); (SInt (1))])])]));
  (1529, (s2l "-> x { puts x }"), Some (s [(SSym (s2l "iter")); (s [(SSym (s2l "lambda"))]); (s [(SSym (s2l "args")); (SSym (s2l "x"))]); (s [(SSym (s2l "call")); SNil; (SSym (s2l "puts")); (s [(SSym (s2l "lvar")); (SSym (s2l "x"))])])]));
  (1530, (s2l "-> x, y { puts x, y }"), Some (s [(SSym (s2l "iter")); (s [(SSym (s2l "lambda"))]); (s [(SSym (s2l "args")); (SSym (s2l "x")); (SSym (s2l "y"))]); (s [(SSym (s2l "call")); SNil; (SSym (s2l "puts")); (s [(SSym (s2l "lvar")); (SSym (s2l "x"))]); (s [(SSym (s2l "lvar")); (SSym (s2l "y"))])])]));
  (1531, (s2l "-> (x, y) { x; y }"), Some (s [(SSym (s2l "iter")); (s [(SSym (s2l "lambda"))]); (s [(SSym (s2l "args")); (SSym (s2l "x")); (SSym (s2l "y"))]); (s [(SSym (s2l "block")); (s [(SSym (s2l "lvar")); (SSym (s2l "x"))]); (s [(SSym (s2l "lvar")); (SSym (s2l "y"))])])]));
  (1532, (s2l "->"), None);
  (1533, (s2l "foo -> { x } do y end"), Some (s [(SSym (s2l "iter")); (s [(SSym (s2l "call")); SNil; (SSym (s2l "foo")); (s [(SSym (s2l "iter")); (s [(SSym (s2l "lambda"))]); (SInt (0)); (s [(SSym (s2l "call")); SNil; (SSym (s2l "x"))])])]); (SInt (0)); (s [(SSym (s2l "call")); SNil; (SSym (s2l "y"))])]));
  (1534, (s2l "foo = -> x { x }"), Some (s [(SSym (s2l "lasgn")); (SSym (s2l "foo")); (s [(SSym (s2l "iter")); (s [(SSym (s2l "lambda"))]); (s [(SSym (s2l "args")); (SSym (s2l "x"))]); (s [(SSym (s2l "lvar")); (SSym (s2l "x"))])])]));
  (1535, (s2l "foo(1, &-> a, b { c })"), Some (s [(SSym (s2l "call")); SNil; (SSym (s2l "foo")); (s [(SSym (s2l "lit")); (SInt (1))]); (s [(SSym (s2l "block_pass")); (s [(SSym (s2l "iter")); (s [(SSym (s2l "lambda"))]); (s [(SSym (s2l "args")); (SSym (s2l "a")); (SSym (s2l "b"))]); (s [(SSym (s2l "call")); SNil; (SSym (s2l "c"))])])])]));
  (1536, (s2l "foo(1, &(-> a, b { c }))"), Some (s [(SSym (s2l "call")); SNil; (SSym (s2l "foo")); (s [(SSym (s2l "lit")); (SInt (1))]); (s [(SSym (s2l "block_pass")); (s [(SSym (s2l "iter")); (s [(SSym (s2l "lambda"))]); (s [(SSym (s2l "args")); (SSym (s2l "a")); (SSym (s2l "b"))]); (s [(SSym (s2l "call")); SNil; (SSym (s2l "c"))])])])]));
  (1537, (s2l "f ->() {}"), Some (s [(SSym (s2l "call")); SNil; (SSym (s2l "f")); (s [(SSym (s2l "iter")); (s [(SSym (s2l "lambda"))]); (s [(SSym (s2l "args"))])])]));
  (1538, (s2l "f ->() do end"), Some (s [(SSym (s2l "call")); SNil; (SSym (s2l "f")); (s [(SSym (s2l "iter")); (s [(SSym (s2l "lambda"))]); (s [(SSym (s2l "args"))])])]));
  (1542, (s2l "-> (a; x) { x }"), Some (s [(SSym (s2l "iter")); (s [(SSym (s2l "lambda"))]); (s [(SSym (s2l "args")); (SSym (s2l "a")); (s [(SSym (s2l "shadow")); (SSym (s2l "x"))])]); (s [(SSym (s2l "lvar")); (SSym (s2l "x"))])]));
  (1543, (s2l "-> (; x) { x }"), Some (s [(SSym (s2l "iter")); (s [(SSym (s2l "lambda"))]); (s [(SSym (s2l "args")); (s [(SSym (s2l "shadow")); (SSym (s2l "x"))])]); (s [(SSym (s2l "lvar")); (SSym (s2l "x"))])]));
  (1544, (s2l "lambda { |a; x| x }"), Some (s [(SSym (s2l "iter")); (s [(SSym (s2l "call")); SNil; (SSym (s2l "lambda"))]); (s [(SSym (s2l "args")); (SSym (s2l "a")); (s [(SSym (s2l "shadow")); (SSym (s2l "x"))])]); (s [(SSym (s2l "lvar")); (SSym (s2l "x"))])]));
  (1545, (s2l "lambda { |; x| x }"), Some (s [(SSym (s2l "iter")); (s [(SSym (s2l "call")); SNil; (SSym (s2l "lambda"))]); (s [(SSym (s2l "args")); (s [(SSym (s2l "shadow")); (SSym (s2l "x"))])]); (s [(SSym (s2l "lvar")); (SSym (s2l "x"))])]));
  (1546, (s2l "foo { |a; x, y| y }"), Some (s [(SSym (s2l "iter")); (s [(SSym (s2l "call")); SNil; (SSym (s2l "foo"))]); (s [(SSym (s2l "args")); (SSym (s2l "a")); (s [(SSym (s2l "shadow")); (SSym (s2l "x")); (SSym (s2l "y"))])]); (s [(SSym (s2l "lvar")); (SSym (s2l "y"))])]));
  (1549, [45; 62; 32; 40; 10; 120; 41; 32; 123; 32; 120; 32; 125]%N, Some (s [(SSym (s2l "iter")); (s [(SSym (s2l "lambda"))]); (s [(SSym (s2l "args")); (SSym (s2l "x"))]); (s [(SSym (s2l "lvar")); (SSym (s2l "x"))])]));
  (1550, [108; 97; 109; 98; 100; 97; 32; 123; 32; 124; 10; 120; 124; 32; 120; 32; 125]%N, Some (s [(SSym (s2l "iter")); (s [(SSym (s2l "call")); SNil; (SSym (s2l "lambda"))]); (s [(SSym (s2l "args")); (SSym (s2l "x"))]); (s [(SSym (s2l "lvar")); (SSym (s2l "x"))])]));
  (1551, [45; 62; 32; 40; 97; 10; 120; 41; 32; 123; 32; 120; 32; 125]%N, None);
  (1552, [108; 97; 109; 98; 100; 97; 32; 123; 32; 124; 97; 10; 120; 124; 32; 120; 32; 125]%N, None);
  (1555, (s2l "def foo(a; x) end"), None);
  (1559, [99; 97; 115; 101; 32; 49; 10; 119; 104; 101; 110; 32; 49; 10; 58; 97; 10; 101; 110; 100]%N, Some (s [(SSym (s2l "case")); (s [(SSym (s2l "lit")); (SInt (1))]); (s [(SSym (s2l "when")); (s [(SSym (s2l "array")); (s [(SSym (s2l "lit")); (SInt (1))])]); (s [(SSym (s2l "lit")); (SSym (s2l "a"))])]); SNil]));
  (1560, [99; 97; 115; 101; 32; 49; 10; 119; 104; 101; 110; 32; 49; 10; 58; 97; 10; 58; 98; 10; 58; 99; 10; 101; 110; 100]%N, Some (s [(SSym (s2l "case")); (s [(SSym (s2l "lit")); (SInt (1))]); (s [(SSym (s2l "when")); (s [(SSym (s2l "array")); (s [(SSym (s2l "lit")); (SInt (1))])]); (s [(SSym (s2l "lit")); (SSym (s2l "a"))]); (s [(SSym (s2l "lit")); (SSym (s2l "b"))]); (s [(SSym (s2l "lit")); (SSym (s2l "c"))])]); SNil]));
  (1561, [99; 97; 115; 101; 32; 49; 10; 119; 104; 101; 110; 32; 49; 32; 116; 104; 101; 110; 32; 58; 97; 10; 101; 110; 100]%N, Some (s [(SSym (s2l "case")); (s [(SSym (s2l "lit")); (SInt (1))]); (s [(SSym (s2l "when")); (s [(SSym (s2l "array")); (s [(SSym (s2l "lit")); (SInt (1))])]); (s [(SSym (s2l "lit")); (SSym (s2l "a"))])]); SNil]));
  (1562, [99; 97; 115; 101; 32; 49; 10; 119; 104; 101; 110; 32; 49; 10; 58; 97; 10; 58; 98; 10; 119; 104; 101; 110; 32; 50; 44; 32; 51; 10; 58; 99; 10; 101; 108; 115; 101; 10; 58; 100; 10; 101; 110; 100]%N, Some (s [(SSym (s2l "case")); (s [(SSym (s2l "lit")); (SInt (1))]); (s [(SSym (s2l "when")); (s [(SSym (s2l "array")); (s [(SSym (s2l "lit")); (SInt (1))])]); (s [(SSym (s2l "lit")); (SSym (s2l "a"))]); (s [(SSym (s2l "lit")); (SSym (s2l "b"))])]); (s [(SSym (s2l "when")); (s [(SSym (s2l "array")); (s [(SSym (s2l "lit")); (SInt (2))]); (s [(SSym (s2l "lit")); (SInt (3))])]); (s [(SSym (s2l "lit")); (SSym (s2l "c"))])]); (s [(SSym (s2l "lit")); (SSym (s2l "d"))])]));
  (1563, [99; 97; 115; 101; 32; 49; 10; 119; 104; 101; 110; 32; 49; 32; 116; 104; 101; 110; 32; 58; 97; 10; 58; 98; 10; 119; 104; 101; 110; 32; 50; 44; 32; 51; 32; 116; 104; 101; 110; 32; 58; 99; 10; 101; 108; 115; 101; 32; 58; 100; 10; 101; 110; 100]%N, Some (s [(SSym (s2l "case")); (s [(SSym (s2l "lit")); (SInt (1))]); (s [(SSym (s2l "when")); (s [(SSym (s2l "array")); (s [(SSym (s2l "lit")); (SInt (1))])]); (s [(SSym (s2l "lit")); (SSym (s2l "a"))]); (s [(SSym (s2l "lit")); (SSym (s2l "b"))])]); (s [(SSym (s2l "when")); (s [(SSym (s2l "array")); (s [(SSym (s2l "lit")); (SInt (2))]); (s [(SSym (s2l "lit")); (SInt (3))])]); (s [(SSym (s2l "lit")); (SSym (s2l "c"))])]); (s [(SSym (s2l "lit")); (SSym (s2l "d"))])]));
  (1564, [99; 97; 115; 101; 32; 49; 10; 119; 104; 101; 110; 32; 49; 32; 116; 104; 101; 110; 32; 101; 110; 100]%N, Some (s [(SSym (s2l "case")); (s [(SSym (s2l "lit")); (SInt (1))]); (s [(SSym (s2l "when")); (s [(SSym (s2l "array")); (s [(SSym (s2l "lit")); (SInt (1))])]); SNil]); SNil]));
  (1565, [99; 97; 115; 101; 10; 119; 104; 101; 110; 32; 116; 114; 117; 101; 10; 58; 97; 10; 101; 108; 115; 101; 10; 58; 98; 10; 101; 110; 100]%N, Some (s [(SSym (s2l "case")); SNil; (s [(SSym (s2l "when")); (s [(SSym (s2l "array")); (s [(SSym (s2l "true"))])]); (s [(SSym (s2l "lit")); (SSym (s2l "a"))])]); (s [(SSym (s2l "lit")); (SSym (s2l "b"))])]));
  (1566, [99; 97; 115; 101; 10; 119; 104; 101; 110; 32; 116; 114; 117; 101; 32; 116; 104; 101; 110; 32; 58; 97; 10; 101; 108; 115; 101; 32; 58; 98; 10; 101; 110; 100]%N, Some (s [(SSym (s2l "case")); SNil; (s [(SSym (s2l "when")); (s [(SSym (s2l "array")); (s [(SSym (s2l "true"))])]); (s [(SSym (s2l "lit")); (SSym (s2l "a"))])]); (s [(SSym (s2l "lit")); (SSym (s2l "b"))])]));
  (1567, [99; 97; 115; 101; 10; 102; 111; 111; 59; 32; 119; 104; 101; 110; 32; 49; 59; 32; 101; 110; 100]%N, Some (s [(SSym (s2l "case")); (s [(SSym (s2l "call")); SNil; (SSym (s2l "foo"))]); (s [(SSym (s2l "when")); (s [(SSym (s2l "array")); (s [(SSym (s2l "lit")); (SInt (1))])]); SNil]); SNil]));
  (1568, (s2l "case; when 1; end"), Some (s [(SSym (s2l "case")); SNil; (s [(SSym (s2l "when")); (s [(SSym (s2l "array")); (s [(SSym (s2l "lit")); (SInt (1))])]); SNil]); SNil]));
  (1569, [99; 97; 115; 101; 32; 49; 10; 101; 108; 115; 101; 10; 58; 101; 108; 115; 101; 10; 101; 110; 100]%N, None);
  (1570, [99; 97; 115; 101; 32; 49; 10; 119; 104; 101; 110; 32; 49; 10; 49; 10; 101; 108; 115; 101; 10; 58; 101; 108; 115; 101; 10; 119; 104; 101; 110; 32; 50; 10; 50; 10; 101; 110; 100]%N, None);
  (1571, [99; 97; 115; 101; 32; 49; 10; 101; 108; 115; 101; 10; 58; 101; 108; 115; 101; 10; 119; 104; 101; 110; 32; 50; 10; 50; 10; 101; 110; 100]%N, None);
  (1576, [99; 97; 115; 101; 32; 49; 10; 105; 110; 32; 110; 105; 108; 10; 101; 110; 100]%N, Some (s [(SSym (s2l "case")); (s [(SSym (s2l "lit")); (SInt (1))]); (s [(SSym (s2l "in")); (s [(SSym (s2l "nil"))]); SNil]); SNil]))].
Example parser_test_7_passes : forallb passes parser_test_7 = true.
Proof. vm_compute. reflexivity. Qed.

(** /repo/test/parser_test.rb, lines 1577-1979. *)
Definition parser_test_8 : list (N * str * option sexp) := [
  (1577, [99; 97; 115; 101; 32; 49; 10; 105; 110; 32; 110; 105; 108; 44; 32; 110; 105; 108; 10; 101; 110; 100]%N, Some (s [(SSym (s2l "case")); (s [(SSym (s2l "lit")); (SInt (1))]); (s [(SSym (s2l "in")); (s [(SSym (s2l "array_pat")); SNil; (s [(SSym (s2l "nil"))]); (s [(SSym (s2l "nil"))])]); SNil]); SNil]));
  (1578, [99; 97; 115; 101; 32; 49; 10; 105; 110; 32; 110; 105; 108; 44; 32; 110; 105; 108; 44; 32; 110; 105; 108; 10; 101; 110; 100]%N, Some (s [(SSym (s2l "case")); (s [(SSym (s2l "lit")); (SInt (1))]); (s [(SSym (s2l "in")); (s [(SSym (s2l "array_pat")); SNil; (s [(SSym (s2l "nil"))]); (s [(SSym (s2l "nil"))]); (s [(SSym (s2l "nil"))])]); SNil]); SNil]));
  (1581, [99; 97; 115; 101; 32; 49; 10; 105; 110; 32; 34; 120; 34; 10; 101; 110; 100]%N, Some (s [(SSym (s2l "case")); (s [(SSym (s2l "lit")); (SInt (1))]); (s [(SSym (s2l "in")); (s [(SSym (s2l "str")); (SStr (s2l "x"))]); SNil]); SNil]));
  (1582, [99; 97; 115; 101; 32; 49; 10; 105; 110; 32; 39; 120; 39; 10; 101; 110; 100]%N, Some (s [(SSym (s2l "case")); (s [(SSym (s2l "lit")); (SInt (1))]); (s [(SSym (s2l "in")); (s [(SSym (s2l "str")); (SStr (s2l "x"))]); SNil]); SNil]));
  (1585, [99; 97; 115; 101; 32; 49; 10; 105; 110; 32; 39; 97; 39; 46; 46; 39; 122; 39; 10; 101; 110; 100]%N, Some (s [(SSym (s2l "case")); (s [(SSym (s2l "lit")); (SInt (1))]); (s [(SSym (s2l "in")); (s [(SSym (s2l "dot2")); (s [(SSym (s2l "str")); (SStr (s2l "a"))]); (s [(SSym (s2l "str")); (SStr (s2l "z"))])]); SNil]); SNil]));
  (1586, [99; 97; 115; 101; 32; 49; 10; 105; 110; 32; 39; 97; 39; 46; 46; 39; 122; 39; 32; 116; 104; 101; 110; 32; 49; 10; 101; 110; 100]%N, Some (s [(SSym (s2l "case")); (s [(SSym (s2l "lit")); (SInt (1))]); (s [(SSym (s2l "in")); (s [(SSym (s2l "dot2")); (s [(SSym (s2l "str")); (SStr (s2l "a"))]); (s [(SSym (s2l "str")); (SStr (s2l "z"))])]); (s [(SSym (s2l "lit")); (SInt (1))])]); SNil]));
  (1589, [99; 97; 115; 101; 32; 49; 10; 105; 110; 32; 49; 46; 46; 50; 10; 101; 110; 100]%N, Some (s [(SSym (s2l "case")); (s [(SSym (s2l "lit")); (SInt (1))]); (s [(SSym (s2l "in")); (s [(SSym (s2l "lit")); (SRange (1) (2) false)]); SNil]); SNil]));
  (1590, [99; 97; 115; 101; 32; 49; 10; 105; 110; 32; 49; 46; 46; 46; 50; 10; 101; 110; 100]%N, Some (s [(SSym (s2l "case")); (s [(SSym (s2l "lit")); (SInt (1))]); (s [(SSym (s2l "in")); (s [(SSym (s2l "lit")); (SRange (1) (2) true)]); SNil]); SNil]));
  (1591, [99; 97; 115; 101; 32; 49; 10; 105; 110; 32; 45; 49; 46; 46; 50; 10; 101; 110; 100]%N, Some (s [(SSym (s2l "case")); (s [(SSym (s2l "lit")); (SInt (1))]); (s [(SSym (s2l "in")); (s [(SSym (s2l "lit")); (SRange (-1) (2) false)]); SNil]); SNil]));
  (1597, [99; 97; 115; 101; 32; 49; 10; 105; 110; 32; 46; 46; 46; 50; 10; 101; 110; 100]%N, Some (s [(SSym (s2l "case")); (s [(SSym (s2l "lit")); (SInt (1))]); (s [(SSym (s2l "in")); (s [(SSym (s2l "dot3")); SNil; (s [(SSym (s2l "lit")); (SInt (2))])]); SNil]); SNil]));
  (1598, [99; 97; 115; 101; 32; 49; 10; 105; 110; 32; 40; 49; 46; 46; 46; 41; 10; 101; 110; 100]%N, Some (s [(SSym (s2l "case")); (s [(SSym (s2l "lit")); (SInt (1))]); (s [(SSym (s2l "in")); (s [(SSym (s2l "dot3")); (s [(SSym (s2l "lit")); (SInt (1))]); SNil]); SNil]); SNil]));
  (1599, [99; 97; 115; 101; 32; 49; 10; 105; 110; 32; 49; 46; 46; 32; 116; 104; 101; 110; 32; 49; 10; 101; 110; 100]%N, Some (s [(SSym (s2l "case")); (s [(SSym (s2l "lit")); (SInt (1))]); (s [(SSym (s2l "in")); (s [(SSym (s2l "dot2")); (s [(SSym (s2l "lit")); (SInt (1))]); SNil]); (s [(SSym (s2l "lit")); (SInt (1))])]); SNil]));
  (1604, [99; 97; 115; 101; 32; 49; 10; 105; 110; 32; 120; 10; 120; 10; 101; 110; 100]%N, Some (s [(SSym (s2l "case")); (s [(SSym (s2l "lit")); (SInt (1))]); (s [(SSym (s2l "in")); (s [(SSym (s2l "lvar")); (SSym (s2l "x"))]); (s [(SSym (s2l "lvar")); (SSym (s2l "x"))])]); SNil]));
  (1608, [99; 97; 115; 101; 32; 49; 10; 105; 110; 32; 120; 32; 116; 104; 101; 110; 32; 58; 97; 10; 101; 110; 100]%N, Some (s [(SSym (s2l "case")); (s [(SSym (s2l "lit")); (SInt (1))]); (s [(SSym (s2l "in")); (s [(SSym (s2l "lvar")); (SSym (s2l "x"))]); (s [(SSym (s2l "lit")); (SSym (s2l "a"))])]); SNil]));
  (1609, [99; 97; 115; 101; 32; 49; 10; 105; 110; 32; 120; 10; 58; 97; 10; 105; 110; 32; 121; 10; 58; 98; 10; 101; 110; 100]%N, Some (s [(SSym (s2l "case")); (s [(SSym (s2l "lit")); (SInt (1))]); (s [(SSym (s2l "in")); (s [(SSym (s2l "lvar")); (SSym (s2l "x"))]); (s [(SSym (s2l "lit")); (SSym (s2l "a"))])]); (s [(SSym (s2l "in")); (s [(SSym (s2l "lvar")); (SSym (s2l "y"))]); (s [(SSym (s2l "lit")); (SSym (s2l "b"))])]); SNil]));
  (1612, [99; 97; 115; 101; 32; 49; 10; 105; 110; 32; 42; 120; 32; 116; 104; 101; 110; 32; 58; 97; 10; 101; 110; 100]%N, Some (s [(SSym (s2l "case")); (s [(SSym (s2l "lit")); (SInt (1))]); (s [(SSym (s2l "in")); (s [(SSym (s2l "array_pat")); SNil; (SSym (s2l "*x"))]); (s [(SSym (s2l "lit")); (SSym (s2l "a"))])]); SNil]));
  (1613, [99; 97; 115; 101; 32; 49; 10; 105; 110; 32; 58; 120; 44; 32; 42; 121; 10; 58; 97; 10; 101; 110; 100]%N, Some (s [(SSym (s2l "case")); (s [(SSym (s2l "lit")); (SInt (1))]); (s [(SSym (s2l "in")); (s [(SSym (s2l "array_pat")); SNil; (s [(SSym (s2l "lit")); (SSym (s2l "x"))]); (SSym (s2l "*y"))]); (s [(SSym (s2l "lit")); (SSym (s2l "a"))])]); SNil]));
  (1614, [99; 97; 115; 101; 32; 49; 10; 105; 110; 32; 91; 58; 120; 44; 32; 42; 121; 93; 10; 58; 97; 10; 101; 110; 100]%N, Some (s [(SSym (s2l "case")); (s [(SSym (s2l "lit")); (SInt (1))]); (s [(SSym (s2l "in")); (s [(SSym (s2l "array_pat")); SNil; (s [(SSym (s2l "lit")); (SSym (s2l "x"))]); (SSym (s2l "*y"))]); (s [(SSym (s2l "lit")); (SSym (s2l "a"))])]); SNil]));
  (1617, [99; 97; 115; 101; 32; 49; 10; 105; 110; 32; 120; 32; 124; 32; 121; 10; 58; 97; 10; 101; 110; 100]%N, Some (s [(SSym (s2l "case")); (s [(SSym (s2l "lit")); (SInt (1))]); (s [(SSym (s2l "in")); (s [(SSym (s2l "or")); (s [(SSym (s2l "lvar")); (SSym (s2l "x"))]); (s [(SSym (s2l "lvar")); (SSym (s2l "y"))])]); (s [(SSym (s2l "lit")); (SSym (s2l "a"))])]); SNil]));
  (1620, [99; 97; 115; 101; 32; 49; 10; 105; 110; 32; 88; 10; 58; 97; 10; 101; 110; 100]%N, Some (s [(SSym (s2l "case")); (s [(SSym (s2l "lit")); (SInt (1))]); (s [(SSym (s2l "in")); (s [(SSym (s2l "const")); (SSym (s2l "X"))]); (s [(SSym (s2l "lit")); (SSym (s2l "a"))])]); SNil]));
  (1625, [99; 97; 115; 101; 32; 49; 10; 105; 110; 32; 91; 94; 97; 44; 32; 97; 93; 10; 58; 97; 10; 101; 110; 100]%N, Some (s [(SSym (s2l "case")); (s [(SSym (s2l "lit")); (SInt (1))]); (s [(SSym (s2l "in")); (s [(SSym (s2l "array_pat")); SNil; (s [(SSym (s2l "pin")); (s [(SSym (s2l "lvar")); (SSym (s2l "a"))])]); (s [(SSym (s2l "lvar")); (SSym (s2l "a"))])]); (s [(SSym (s2l "lit")); (SSym (s2l "a"))])]); SNil]));
  (1629, [99; 97; 115; 101; 32; 49; 10; 105; 110; 32; 120; 44; 32; 58; 121; 10; 58; 97; 10; 101; 110; 100]%N, Some (s [(SSym (s2l "case")); (s [(SSym (s2l "lit")); (SInt (1))]); (s [(SSym (s2l "in")); (s [(SSym (s2l "array_pat")); SNil; (s [(SSym (s2l "lvar")); (SSym (s2l "x"))]); (s [(SSym (s2l "lit")); (SSym (s2l "y"))])]); (s [(SSym (s2l "lit")); (SSym (s2l "a"))])]); SNil]));
  (1630, [99; 97; 115; 101; 32; 49; 10; 105; 110; 32; 120; 44; 32; 91; 58; 121; 93; 10; 58; 97; 10; 101; 110; 100]%N, Some (s [(SSym (s2l "case")); (s [(SSym (s2l "lit")); (SInt (1))]); (s [(SSym (s2l "in")); (s [(SSym (s2l "array_pat")); SNil; (s [(SSym (s2l "lvar")); (SSym (s2l "x"))]); (s [(SSym (s2l "array_pat")); SNil; (s [(SSym (s2l "lit")); (SSym (s2l "y"))])])]); (s [(SSym (s2l "lit")); (SSym (s2l "a"))])]); SNil]));
  (1631, [99; 97; 115; 101; 32; 49; 10; 105; 110; 32; 91; 120; 93; 44; 32; 58; 121; 10; 58; 97; 10; 101; 110; 100]%N, Some (s [(SSym (s2l "case")); (s [(SSym (s2l "lit")); (SInt (1))]); (s [(SSym (s2l "in")); (s [(SSym (s2l "array_pat")); SNil; (s [(SSym (s2l "array_pat")); SNil; (s [(SSym (s2l "lvar")); (SSym (s2l "x"))])]); (s [(SSym (s2l "lit")); (SSym (s2l "y"))])]); (s [(SSym (s2l "lit")); (SSym (s2l "a"))])]); SNil]));
  (1632, [99; 97; 115; 101; 32; 49; 10; 105; 110; 32; 91; 93; 10; 58; 97; 10; 101; 110; 100]%N, Some (s [(SSym (s2l "case")); (s [(SSym (s2l "lit")); (SInt (1))]); (s [(SSym (s2l "in")); (s [(SSym (s2l "array_pat"))]); (s [(SSym (s2l "lit")); (SSym (s2l "a"))])]); SNil]));
  (1633, [99; 97; 115; 101; 32; 49; 10; 105; 110; 32; 91; 32; 93; 10; 101; 110; 100]%N, Some (s [(SSym (s2l "case")); (s [(SSym (s2l "lit")); (SInt (1))]); (s [(SSym (s2l "in")); (s [(SSym (s2l "array_pat"))]); SNil]); SNil]));
  (1634, [99; 97; 115; 101; 32; 49; 10; 105; 110; 32; 91; 58; 120; 44; 32; 120; 93; 10; 58; 97; 10; 101; 110; 100]%N, Some (s [(SSym (s2l "case")); (s [(SSym (s2l "lit")); (SInt (1))]); (s [(SSym (s2l "in")); (s [(SSym (s2l "array_pat")); SNil; (s [(SSym (s2l "lit")); (SSym (s2l "x"))]); (s [(SSym (s2l "lvar")); (SSym (s2l "x"))])]); (s [(SSym (s2l "lit")); (SSym (s2l "a"))])]); SNil]));
  (1635, [99; 97; 115; 101; 32; 49; 10; 105; 110; 32; 91; 97; 44; 32; 97; 93; 10; 58; 97; 10; 101; 110; 100]%N, Some (s [(SSym (s2l "case")); (s [(SSym (s2l "lit")); (SInt (1))]); (s [(SSym (s2l "in")); (s [(SSym (s2l "array_pat")); SNil; (s [(SSym (s2l "lvar")); (SSym (s2l "a"))]); (s [(SSym (s2l "lvar")); (SSym (s2l "a"))])]); (s [(SSym (s2l "lit")); (SSym (s2l "a"))])]); SNil]));
  (1636, [99; 97; 115; 101; 32; 49; 10; 105; 110; 32; 91; 49; 44; 32; 120; 93; 10; 58; 97; 10; 101; 110; 100]%N, Some (s [(SSym (s2l "case")); (s [(SSym (s2l "lit")); (SInt (1))]); (s [(SSym (s2l "in")); (s [(SSym (s2l "array_pat")); SNil; (s [(SSym (s2l "lit")); (SInt (1))]); (s [(SSym (s2l "lvar")); (SSym (s2l "x"))])]); (s [(SSym (s2l "lit")); (SSym (s2l "a"))])]); SNil]));
  (1637, [99; 97; 115; 101; 32; 49; 10; 105; 110; 32; 91; 49; 46; 50; 44; 32; 120; 93; 10; 58; 97; 10; 101; 110; 100]%N, Some (s [(SSym (s2l "case")); (s [(SSym (s2l "lit")); (SInt (1))]); (s [(SSym (s2l "in")); (s [(SSym (s2l "array_pat")); SNil; (s [(SSym (s2l "lit")); (SFloat false [])]); (s [(SSym (s2l "lvar")); (SSym (s2l "x"))])]); (s [(SSym (s2l "lit")); (SSym (s2l "a"))])]); SNil]));
  (1638, [99; 97; 115; 101; 32; 49; 10; 105; 110; 32; 91; 39; 111; 110; 101; 39; 44; 32; 120; 93; 10; 58; 97; 10; 101; 110; 100]%N, Some (s [(SSym (s2l "case")); (s [(SSym (s2l "lit")); (SInt (1))]); (s [(SSym (s2l "in")); (s [(SSym (s2l "array_pat")); SNil; (s [(SSym (s2l "str")); (SStr (s2l "one"))]); (s [(SSym (s2l "lvar")); (SSym (s2l "x"))])]); (s [(SSym (s2l "lit")); (SSym (s2l "a"))])]); SNil]));
  (1639, [99; 97; 115; 101; 32; 49; 10; 105; 110; 32; 91; 49; 44; 32; 50; 93; 32; 61; 62; 32; 97; 10; 58; 97; 10; 101; 110; 100]%N, Some (s [(SSym (s2l "case")); (s [(SSym (s2l "lit")); (SInt (1))]); (s [(SSym (s2l "in")); (s [(SSym (s2l "lasgn")); (SSym (s2l "a")); (s [(SSym (s2l "array_pat")); SNil; (s [(SSym (s2l "lit")); (SInt (1))]); (s [(SSym (s2l "lit")); (SInt (2))])])]); (s [(SSym (s2l "lit")); (SSym (s2l "a"))])]); SNil]));
  (1640, [99; 97; 115; 101; 32; 49; 10; 105; 110; 32; 91; 49; 44; 32; 50; 44; 93; 32; 61; 62; 32; 97; 10; 58; 97; 10; 101; 110; 100]%N, Some (s [(SSym (s2l "case")); (s [(SSym (s2l "lit")); (SInt (1))]); (s [(SSym (s2l "in")); (s [(SSym (s2l "lasgn")); (SSym (s2l "a")); (s [(SSym (s2l "array_pat")); SNil; (s [(SSym (s2l "lit")); (SInt (1))]); (s [(SSym (s2l "lit")); (SInt (2))]); (SSym (s2l "*"))])]); (s [(SSym (s2l "lit")); (SSym (s2l "a"))])]); SNil]));
  (1641, [99; 97; 115; 101; 32; 49; 10; 105; 110; 32; 91; 49; 32; 61; 62; 32; 97; 93; 32; 61; 62; 32; 98; 10; 58; 97; 10; 101; 110; 100]%N, Some (s [(SSym (s2l "case")); (s [(SSym (s2l "lit")); (SInt (1))]); (s [(SSym (s2l "in")); (s [(SSym (s2l "lasgn")); (SSym (s2l "b")); (s [(SSym (s2l "array_pat")); SNil; (s [(SSym (s2l "lasgn")); (SSym (s2l "a")); (s [(SSym (s2l "lit")); (SInt (1))])])])]); (s [(SSym (s2l "lit")); (SSym (s2l "a"))])]); SNil]));
  (1644, [99; 97; 115; 101; 32; 49; 10; 105; 110; 32; 123; 125; 10; 58; 97; 10; 101; 110; 100]%N, Some (s [(SSym (s2l "case")); (s [(SSym (s2l "lit")); (SInt (1))]); (s [(SSym (s2l "in")); (s [(SSym (s2l "hash_pat")); SNil]); (s [(SSym (s2l "lit")); (SSym (s2l "a"))])]); SNil]));
  (1647, [99; 97; 115; 101; 32; 49; 10; 105; 110; 32; 123; 32; 120; 58; 32; 120; 32; 125; 10; 120; 10; 101; 110; 100]%N, Some (s [(SSym (s2l "case")); (s [(SSym (s2l "lit")); (SInt (1))]); (s [(SSym (s2l "in")); (s [(SSym (s2l "hash_pat")); SNil; (s [(SSym (s2l "lit")); (SSym (s2l "x"))]); (s [(SSym (s2l "lvar")); (SSym (s2l "x"))])]); (s [(SSym (s2l "lvar")); (SSym (s2l "x"))])]); SNil]));
  (1651, [99; 97; 115; 101; 32; 49; 10; 105; 110; 32; 123; 32; 120; 58; 32; 120; 32; 125; 10; 49; 10; 101; 110; 100]%N, Some (s [(SSym (s2l "case")); (s [(SSym (s2l "lit")); (SInt (1))]); (s [(SSym (s2l "in")); (s [(SSym (s2l "hash_pat")); SNil; (s [(SSym (s2l "lit")); (SSym (s2l "x"))]); (s [(SSym (s2l "lvar")); (SSym (s2l "x"))])]); (s [(SSym (s2l "lit")); (SInt (1))])]); SNil]));
  (1652, [99; 97; 115; 101; 32; 49; 10; 105; 110; 32; 123; 32; 120; 58; 32; 120; 44; 32; 121; 58; 32; 121; 32; 125; 10; 101; 110; 100]%N, Some (s [(SSym (s2l "case")); (s [(SSym (s2l "lit")); (SInt (1))]); (s [(SSym (s2l "in")); (s [(SSym (s2l "hash_pat")); SNil; (s [(SSym (s2l "lit")); (SSym (s2l "x"))]); (s [(SSym (s2l "lvar")); (SSym (s2l "x"))]); (s [(SSym (s2l "lit")); (SSym (s2l "y"))]); (s [(SSym (s2l "lvar")); (SSym (s2l "y"))])]); SNil]); SNil]));
  (1653, [99; 97; 115; 101; 32; 49; 10; 105; 110; 32; 123; 32; 39; 120; 39; 58; 32; 120; 44; 32; 39; 121; 39; 58; 32; 121; 32; 125; 10; 49; 10; 101; 110; 100]%N, Some (s [(SSym (s2l "case")); (s [(SSym (s2l "lit")); (SInt (1))]); (s [(SSym (s2l "in")); (s [(SSym (s2l "hash_pat")); SNil; (s [(SSym (s2l "lit")); (SSym (s2l "x"))]); (s [(SSym (s2l "lvar")); (SSym (s2l "x"))]); (s [(SSym (s2l "lit")); (SSym (s2l "y"))]); (s [(SSym (s2l "lvar")); (SSym (s2l "y"))])]); (s [(SSym (s2l "lit")); (SInt (1))])]); SNil]));
  (1654, [99; 97; 115; 101; 32; 49; 10; 105; 110; 32; 123; 32; 34; 120; 34; 58; 32; 120; 32; 125; 10; 49; 10; 101; 110; 100]%N, Some (s [(SSym (s2l "case")); (s [(SSym (s2l "lit")); (SInt (1))]); (s [(SSym (s2l "in")); (s [(SSym (s2l "hash_pat")); SNil; (s [(SSym (s2l "lit")); (SSym (s2l "x"))]); (s [(SSym (s2l "lvar")); (SSym (s2l "x"))])]); (s [(SSym (s2l "lit")); (SInt (1))])]); SNil]));
  (1655, [99; 97; 115; 101; 32; 49; 10; 105; 110; 32; 123; 32; 120; 58; 32; 125; 10; 120; 10; 101; 110; 100]%N, Some (s [(SSym (s2l "case")); (s [(SSym (s2l "lit")); (SInt (1))]); (s [(SSym (s2l "in")); (s [(SSym (s2l "hash_pat")); SNil; (s [(SSym (s2l "lit")); (SSym (s2l "x"))]); SNil]); (s [(SSym (s2l "lvar")); (SSym (s2l "x"))])]); SNil]));
  (1656, [99; 97; 115; 101; 32; 49; 10; 105; 110; 32; 123; 32; 120; 58; 44; 32; 121; 58; 32; 125; 10; 101; 110; 100]%N, Some (s [(SSym (s2l "case")); (s [(SSym (s2l "lit")); (SInt (1))]); (s [(SSym (s2l "in")); (s [(SSym (s2l "hash_pat")); SNil; (s [(SSym (s2l "lit")); (SSym (s2l "x"))]); SNil; (s [(SSym (s2l "lit")); (SSym (s2l "y"))]); SNil]); SNil]); SNil]));
  (1657, [99; 97; 115; 101; 32; 49; 10; 105; 110; 32; 123; 32; 120; 58; 32; 91; 58; 97; 44; 32; 97; 93; 32; 61; 62; 32; 98; 32; 125; 32; 61; 62; 32; 121; 10; 120; 10; 101; 110; 100]%N, Some (s [(SSym (s2l "case")); (s [(SSym (s2l "lit")); (SInt (1))]); (s [(SSym (s2l "in")); (s [(SSym (s2l "lasgn")); (SSym (s2l "y")); (s [(SSym (s2l "hash_pat")); SNil; (s [(SSym (s2l "lit")); (SSym (s2l "x"))]); (s [(SSym (s2l "lasgn")); (SSym (s2l "b")); (s [(SSym (s2l "array_pat")); SNil; (s [(SSym (s2l "lit")); (SSym (s2l "a"))]); (s [(SSym (s2l "lvar")); (SSym (s2l "a"))])])])])]); (s [(SSym (s2l "call")); SNil; (SSym (s2l "x"))])]); SNil]));
  (1658, [99; 97; 115; 101; 32; 49; 10; 105; 110; 32; 123; 32; 120; 58; 44; 32; 42; 42; 102; 111; 111; 32; 125; 10; 120; 10; 102; 111; 111; 10; 101; 110; 100]%N, Some (s [(SSym (s2l "case")); (s [(SSym (s2l "lit")); (SInt (1))]); (s [(SSym (s2l "in")); (s [(SSym (s2l "hash_pat")); SNil; (s [(SSym (s2l "lit")); (SSym (s2l "x"))]); SNil; (s [(SSym (s2l "kwrest")); (SSym (s2l "**foo"))])]); (s [(SSym (s2l "lvar")); (SSym (s2l "x"))]); (s [(SSym (s2l "lvar")); (SSym (s2l "foo"))])]); SNil]));
  (1659, [99; 97; 115; 101; 32; 49; 10; 105; 110; 32; 123; 32; 120; 58; 44; 32; 42; 42; 32; 125; 10; 101; 110; 100]%N, Some (s [(SSym (s2l "case")); (s [(SSym (s2l "lit")); (SInt (1))]); (s [(SSym (s2l "in")); (s [(SSym (s2l "hash_pat")); SNil; (s [(SSym (s2l "lit")); (SSym (s2l "x"))]); SNil; (s [(SSym (s2l "kwrest")); (SSym (s2l "**"))])]); SNil]); SNil]));
  (1660, [99; 97; 115; 101; 32; 49; 10; 105; 110; 32; 42; 42; 102; 111; 111; 10; 101; 110; 100]%N, Some (s [(SSym (s2l "case")); (s [(SSym (s2l "lit")); (SInt (1))]); (s [(SSym (s2l "in")); (s [(SSym (s2l "hash_pat")); SNil; (s [(SSym (s2l "kwrest")); (SSym (s2l "**foo"))])]); SNil]); SNil]));
  (1661, [99; 97; 115; 101; 32; 49; 10; 105; 110; 32; 42; 42; 110; 105; 108; 10; 101; 110; 100]%N, Some (s [(SSym (s2l "case")); (s [(SSym (s2l "lit")); (SInt (1))]); (s [(SSym (s2l "in")); (s [(SSym (s2l "hash_pat")); SNil; (s [(SSym (s2l "kwrest")); (SSym (s2l "**nil"))])]); SNil]); SNil]));
  (1664, [99; 97; 115; 101; 32; 49; 10; 105; 110; 32; 40; 49; 41; 10; 101; 110; 100]%N, Some (s [(SSym (s2l "case")); (s [(SSym (s2l "lit")); (SInt (1))]); (s [(SSym (s2l "in")); (s [(SSym (s2l "lit")); (SInt (1))]); SNil]); SNil]));
  (1665, [99; 97; 115; 101; 32; 49; 10; 105; 110; 32; 40; 58; 120; 41; 10; 101; 110; 100]%N, Some (s [(SSym (s2l "case")); (s [(SSym (s2l "lit")); (SInt (1))]); (s [(SSym (s2l "in")); (s [(SSym (s2l "lit")); (SSym (s2l "x"))]); SNil]); SNil]));
  (1666, [99; 97; 115; 101; 32; 49; 10; 105; 110; 32; 40; 91; 58; 120; 93; 41; 10; 101; 110; 100]%N, Some (s [(SSym (s2l "case")); (s [(SSym (s2l "lit")); (SInt (1))]); (s [(SSym (s2l "in")); (s [(SSym (s2l "array_pat")); SNil; (s [(SSym (s2l "lit")); (SSym (s2l "x"))])]); SNil]); SNil]));
  (1667, [99; 97; 115; 101; 32; 49; 10; 105; 110; 32; 40; 58; 120; 44; 32; 58; 121; 41; 10; 101; 110; 100]%N, None);
  (1671, (s2l "begin;1;2;rescue;3;4;end"), Some (s [(SSym (s2l "rescue")); (s [(SSym (s2l "block")); (s [(SSym (s2l "lit")); (SInt (1))]); (s [(SSym (s2l "lit")); (SInt (2))])]); (s [(SSym (s2l "resbody")); (s [(SSym (s2l "array"))]); (s [(SSym (s2l "lit")); (SInt (3))]); (s [(SSym (s2l "lit")); (SInt (4))])])]));
  (1672, (s2l "begin;1;rescue => e;e;end"), Some (s [(SSym (s2l "rescue")); (s [(SSym (s2l "lit")); (SInt (1))]); (s [(SSym (s2l "resbody")); (s [(SSym (s2l "array")); (s [(SSym (s2l "lasgn")); (SSym (s2l "e")); (s [(SSym (s2l "gvar")); (SSym (s2l "$!"))])])]); (s [(SSym (s2l "lvar")); (SSym (s2l "e"))])])]));
  (1673, (s2l "begin;rescue SyntaxError, NoMethodError => e;3;end"), Some (s [(SSym (s2l "rescue")); (s [(SSym (s2l "resbody")); (s [(SSym (s2l "array")); (s [(SSym (s2l "const")); (SSym (s2l "SyntaxError"))]); (s [(SSym (s2l "const")); (SSym (s2l "NoMethodError"))]); (s [(SSym (s2l "lasgn")); (SSym (s2l "e")); (s [(SSym (s2l "gvar")); (SSym (s2l "$!"))])])]); (s [(SSym (s2l "lit")); (SInt (3))])])]));
  (1674, (s2l "begin;rescue SyntaxError;3;else;4;5;end"), Some (s [(SSym (s2l "rescue")); (s [(SSym (s2l "resbody")); (s [(SSym (s2l "array")); (s [(SSym (s2l "const")); (SSym (s2l "SyntaxError"))])]); (s [(SSym (s2l "lit")); (SInt (3))])]); (s [(SSym (s2l "block")); (s [(SSym (s2l "lit")); (SInt (4))]); (s [(SSym (s2l "lit")); (SInt (5))])])]));
  (1675, [98; 101; 103; 105; 110; 10; 48; 10; 101; 110; 115; 117; 114; 101; 10; 58; 97; 10; 58; 98; 10; 101; 110; 100]%N, Some (s [(SSym (s2l "ensure")); (s [(SSym (s2l "lit")); (SInt (0))]); (s [(SSym (s2l "block")); (s [(SSym (s2l "lit")); (SSym (s2l "a"))]); (s [(SSym (s2l "lit")); (SSym (s2l "b"))])])]));
  (1676, (s2l "begin;0;rescue;:a;else;:c;ensure;:d;:e;end"), Some (s [(SSym (s2l "ensure")); (s [(SSym (s2l "rescue")); (s [(SSym (s2l "lit")); (SInt (0))]); (s [(SSym (s2l "resbody")); (s [(SSym (s2l "array"))]); (s [(SSym (s2l "lit")); (SSym (s2l "a"))])]); (s [(SSym (s2l "lit")); (SSym (s2l "c"))])]); (s [(SSym (s2l "block")); (s [(SSym (s2l "lit")); (SSym (s2l "d"))]); (s [(SSym (s2l "lit")); (SSym (s2l "e"))])])]));
  (1677, (s2l "def foo;0;rescue;:a;else;:c;ensure;:d;:e;end"), Some (s [(SSym (s2l "defn")); (SSym (s2l "foo")); (s [(SSym (s2l "args"))]); (s [(SSym (s2l "ensure")); (s [(SSym (s2l "rescue")); (s [(SSym (s2l "lit")); (SInt (0))]); (s [(SSym (s2l "resbody")); (s [(SSym (s2l "array"))]); (s [(SSym (s2l "lit")); (SSym (s2l "a"))])]); (s [(SSym (s2l "lit")); (SSym (s2l "c"))])]); (s [(SSym (s2l "block")); (s [(SSym (s2l "lit")); (SSym (s2l "d"))]); (s [(SSym (s2l "lit")); (SSym (s2l "e"))])])])]));
  (1678, (s2l "def foo;0;ensure;:a;:e;end"), Some (s [(SSym (s2l "defn")); (SSym (s2l "foo")); (s [(SSym (s2l "args"))]); (s [(SSym (s2l "ensure")); (s [(SSym (s2l "lit")); (SInt (0))]); (s [(SSym (s2l "block")); (s [(SSym (s2l "lit")); (SSym (s2l "a"))]); (s [(SSym (s2l "lit")); (SSym (s2l "e"))])])])]));
  (1679, (s2l "begin;0;rescue foo(1), bar(2);1;end"), Some (s [(SSym (s2l "rescue")); (s [(SSym (s2l "lit")); (SInt (0))]); (s [(SSym (s2l "resbody")); (s [(SSym (s2l "array")); (s [(SSym (s2l "call")); SNil; (SSym (s2l "foo")); (s [(SSym (s2l "lit")); (SInt (1))])]); (s [(SSym (s2l "call")); SNil; (SSym (s2l "bar")); (s [(SSym (s2l "lit")); (SInt (2))])])]); (s [(SSym (s2l "lit")); (SInt (1))])])]));
  (1680, (s2l "begin;0;ensure;1;end"), Some (s [(SSym (s2l "ensure")); (s [(SSym (s2l "lit")); (SInt (0))]); (s [(SSym (s2l "lit")); (SInt (1))])]));
  (1681, (s2l "x ||= begin;0;rescue;1;end"), Some (s [(SSym (s2l "op_asgn_or")); (s [(SSym (s2l "lvar")); (SSym (s2l "x"))]); (s [(SSym (s2l "lasgn")); (SSym (s2l "x")); (s [(SSym (s2l "rescue")); (s [(SSym (s2l "lit")); (SInt (0))]); (s [(SSym (s2l "resbody")); (s [(SSym (s2l "array"))]); (s [(SSym (s2l "lit")); (SInt (1))])])])])]));
  (1682, (s2l "x = begin;1;2;end"), Some (s [(SSym (s2l "lasgn")); (SSym (s2l "x")); (s [(SSym (s2l "block")); (s [(SSym (s2l "lit")); (SInt (1))]); (s [(SSym (s2l "lit")); (SInt (2))])])]));
  (1683, (s2l "foo do;rescue;1;else;2;ensure;3;end"), Some (s [(SSym (s2l "iter")); (s [(SSym (s2l "call")); SNil; (SSym (s2l "foo"))]); (SInt (0)); (s [(SSym (s2l "ensure")); (s [(SSym (s2l "rescue")); (s [(SSym (s2l "resbody")); (s [(SSym (s2l "array"))]); (s [(SSym (s2l "lit")); (SInt (1))])]); (s [(SSym (s2l "lit")); (SInt (2))])]); (s [(SSym (s2l "lit")); (SInt (3))])])]));
  (1684, [102; 111; 111; 32; 100; 111; 10; 10; 114; 101; 115; 99; 117; 101; 10; 49; 10; 101; 108; 115; 101; 59; 50; 10; 101; 110; 115; 117; 114; 101; 10; 51; 10; 101; 110; 100]%N, Some (s [(SSym (s2l "iter")); (s [(SSym (s2l "call")); SNil; (SSym (s2l "foo"))]); (SInt (0)); (s [(SSym (s2l "ensure")); (s [(SSym (s2l "rescue")); (s [(SSym (s2l "resbody")); (s [(SSym (s2l "array"))]); (s [(SSym (s2l "lit")); (SInt (1))])]); (s [(SSym (s2l "lit")); (SInt (2))])]); (s [(SSym (s2l "lit")); (SInt (3))])])]));
  (1685, (s2l "class Foo;rescue;1;else;2;ensure;3;end"), Some (s [(SSym (s2l "class")); (SSym (s2l "Foo")); SNil; (s [(SSym (s2l "ensure")); (s [(SSym (s2l "rescue")); (s [(SSym (s2l "resbody")); (s [(SSym (s2l "array"))]); (s [(SSym (s2l "lit")); (SInt (1))])]); (s [(SSym (s2l "lit")); (SInt (2))])]); (s [(SSym (s2l "lit")); (SInt (3))])])]));
  (1686, (s2l "module Foo;rescue;1;else;2;ensure;3;end"), Some (s [(SSym (s2l "module")); (SSym (s2l "Foo")); (s [(SSym (s2l "ensure")); (s [(SSym (s2l "rescue")); (s [(SSym (s2l "resbody")); (s [(SSym (s2l "array"))]); (s [(SSym (s2l "lit")); (SInt (1))])]); (s [(SSym (s2l "lit")); (SInt (2))])]); (s [(SSym (s2l "lit")); (SInt (3))])])]));
  (1687, [104; 91; 107; 93; 61; 98; 101; 103; 105; 110; 10; 52; 50; 10; 101; 110; 100]%N, Some (s [(SSym (s2l "attrasgn")); (s [(SSym (s2l "call")); SNil; (SSym (s2l "h"))]); (SSym (s2l "[]=")); (s [(SSym (s2l "call")); SNil; (SSym (s2l "k"))]); (s [(SSym (s2l "lit")); (SInt (42))])]));
  (1688, [97; 32; 98; 101; 103; 105; 110; 10; 98; 46; 99; 32; 100; 111; 32; 101; 110; 100; 10; 101; 110; 100]%N, Some (s [(SSym (s2l "call")); SNil; (SSym (s2l "a")); (s [(SSym (s2l "iter")); (s [(SSym (s2l "call")); (s [(SSym (s2l "call")); SNil; (SSym (s2l "b"))]); (SSym (s2l "c"))]); (SInt (0))])]));
  (1689, (s2l "begin; rescue => @@captured_error; end"), Some (s [(SSym (s2l "rescue")); (s [(SSym (s2l "resbody")); (s [(SSym (s2l "array")); (s [(SSym (s2l "cvdecl")); (SSym (s2l "@@captured_error")); (s [(SSym (s2l "gvar")); (SSym (s2l "$!"))])])]); SNil])]));
  (1690, (s2l "begin; rescue => CapturedError; end"), Some (s [(SSym (s2l "rescue")); (s [(SSym (s2l "resbody")); (s [(SSym (s2l "array")); (s [(SSym (s2l "cdecl")); (SSym (s2l "CapturedError")); (s [(SSym (s2l "gvar")); (SSym (s2l "$!"))])])]); SNil])]));
  (1691, (s2l "begin; rescue => $captured_error; end"), Some (s [(SSym (s2l "rescue")); (s [(SSym (s2l "resbody")); (s [(SSym (s2l "array")); (s [(SSym (s2l "gasgn")); (SSym (s2l "$captured_error")); (s [(SSym (s2l "gvar")); (SSym (s2l "$!"))])])]); SNil])]));
  (1692, (s2l "begin; rescue => @captured_error; end"), Some (s [(SSym (s2l "rescue")); (s [(SSym (s2l "resbody")); (s [(SSym (s2l "array")); (s [(SSym (s2l "iasgn")); (SSym (s2l "@captured_error")); (s [(SSym (s2l "gvar")); (SSym (s2l "$!"))])])]); SNil])]));
  (1693, (s2l "begin; rescue => self&.captured_error; end"), Some (s [(SSym (s2l "rescue")); (s [(SSym (s2l "resbody")); (s [(SSym (s2l "array")); (s [(SSym (s2l "safe_attrasgn")); (s [(SSym (s2l "self"))]); (SSym (s2l "captured_error=")); (s [(SSym (s2l "gvar")); (SSym (s2l "$!"))])])]); SNil])]));
  (1694, (s2l "begin; rescue => self.captured_error; end"), Some (s [(SSym (s2l "rescue")); (s [(SSym (s2l "resbody")); (s [(SSym (s2l "array")); (s [(SSym (s2l "attrasgn")); (s [(SSym (s2l "self"))]); (SSym (s2l "captured_error=")); (s [(SSym (s2l "gvar")); (SSym (s2l "$!"))])])]); SNil])]));
  (1695, (s2l "begin; rescue => self[:error]; end"), Some (s [(SSym (s2l "rescue")); (s [(SSym (s2l "resbody")); (s [(SSym (s2l "array")); (s [(SSym (s2l "attrasgn")); (s [(SSym (s2l "self"))]); (SSym (s2l "[]=")); (s [(SSym (s2l "lit")); (SSym (s2l "error"))]); (s [(SSym (s2l "gvar")); (SSym (s2l "$!"))])])]); SNil])]));
  (1699, (s2l "foo rescue bar"), Some (s [(SSym (s2l "rescue")); (s [(SSym (s2l "call")); SNil; (SSym (s2l "foo"))]); (s [(SSym (s2l "resbody")); (s [(SSym (s2l "array"))]); (s [(SSym (s2l "call")); SNil; (SSym (s2l "bar"))])])]));
  (1700, (s2l "foo(1) { 2 } rescue [1, 2]"), Some (s [(SSym (s2l "rescue")); (s [(SSym (s2l "iter")); (s [(SSym (s2l "call")); SNil; (SSym (s2l "foo")); (s [(SSym (s2l "lit")); (SInt (1))])]); (SInt (0)); (s [(SSym (s2l "lit")); (SInt (2))])]); (s [(SSym (s2l "resbody")); (s [(SSym (s2l "array"))]); (s [(SSym (s2l "array")); (s [(SSym (s2l "lit")); (SInt (1))]); (s [(SSym (s2l "lit")); (SInt (2))])])])]));
  (1701, (s2l "a = b and c = d(1) rescue 2"), Some (s [(SSym (s2l "and")); (s [(SSym (s2l "lasgn")); (SSym (s2l "a")); (s [(SSym (s2l "call")); SNil; (SSym (s2l "b"))])]); (s [(SSym (s2l "lasgn")); (SSym (s2l "c")); (s [(SSym (s2l "rescue")); (s [(SSym (s2l "call")); SNil; (SSym (s2l "d")); (s [(SSym (s2l "lit")); (SInt (1))])]); (s [(SSym (s2l "resbody")); (s [(SSym (s2l "array"))]); (s [(SSym (s2l "lit")); (SInt (2))])])])])]));
  (1702, (s2l "a = b(1) rescue 2"), Some (s [(SSym (s2l "lasgn")); (SSym (s2l "a")); (s [(SSym (s2l "rescue")); (s [(SSym (s2l "call")); SNil; (SSym (s2l "b")); (s [(SSym (s2l "lit")); (SInt (1))])]); (s [(SSym (s2l "resbody")); (s [(SSym (s2l "array"))]); (s [(SSym (s2l "lit")); (SInt (2))])])])]));
  (1706, (s2l "`ls`"), Some (s [(SSym (s2l "xstr")); (SStr (s2l "ls"))]));
  (1707, (s2l "%x(ls)"), Some (s [(SSym (s2l "xstr")); (SStr (s2l "ls"))]));
  (1708, (s2l "%x(ls #{path})"), Some (s [(SSym (s2l "dxstr")); (SStr (s2l "ls ")); (s [(SSym (s2l "evstr")); (s [(SSym (s2l "call")); SNil; (SSym (s2l "path"))])])]));
  (1709, (s2l "`#{1+1} #{2+2}`.foo(1).strip"), Some (s [(SSym (s2l "call")); (s [(SSym (s2l "call")); (s [(SSym (s2l "dxstr")); (SStr (s2l "")); (s [(SSym (s2l "evstr")); (s [(SSym (s2l "call")); (s [(SSym (s2l "lit")); (SInt (1))]); (SSym (s2l "+")); (s [(SSym (s2l "lit")); (SInt (1))])])]); (s [(SSym (s2l "str")); (SStr (s2l " "))]); (s [(SSym (s2l "evstr")); (s [(SSym (s2l "call")); (s [(SSym (s2l "lit")); (SInt (2))]); (SSym (s2l "+")); (s [(SSym (s2l "lit")); (SInt (2))])])])]); (SSym (s2l "foo")); (s [(SSym (s2l "lit")); (SInt (1))])]); (SSym (s2l "strip"))]));
  (1713, (s2l "alias foo bar"), Some (s [(SSym (s2l "alias")); (s [(SSym (s2l "lit")); (SSym (s2l "foo"))]); (s [(SSym (s2l "lit")); (SSym (s2l "bar"))])]));
  (1714, (s2l "alias :foo :bar"), Some (s [(SSym (s2l "alias")); (s [(SSym (s2l "lit")); (SSym (s2l "foo"))]); (s [(SSym (s2l "lit")); (SSym (s2l "bar"))])]));
  (1715, (s2l "alias :""foo"" :""bar"""), Some (s [(SSym (s2l "alias")); (s [(SSym (s2l "lit")); (SSym (s2l "foo"))]); (s [(SSym (s2l "lit")); (SSym (s2l "bar"))])]));
  (1716, (s2l "alias Foo Bar"), Some (s [(SSym (s2l "alias")); (s [(SSym (s2l "lit")); (SSym (s2l "Foo"))]); (s [(SSym (s2l "lit")); (SSym (s2l "Bar"))])]));
  (1717, [97; 108; 105; 97; 115; 32; 119; 114; 105; 116; 101; 32; 60; 60; 10; 100; 101; 102; 32; 102; 111; 111; 59; 32; 101; 110; 100]%N, Some (s [(SSym (s2l "block")); (s [(SSym (s2l "alias")); (s [(SSym (s2l "lit")); (SSym (s2l "write"))]); (s [(SSym (s2l "lit")); (SSym (s2l "<<"))])]); (s [(SSym (s2l "defn")); (SSym (s2l "foo")); (s [(SSym (s2l "args"))]); (s [(SSym (s2l "nil"))])])]));
  (1718, [97; 108; 105; 97; 115; 32; 60; 60; 32; 119; 114; 105; 116; 101; 10; 100; 101; 102; 32; 102; 111; 111; 59; 32; 101; 110; 100]%N, Some (s [(SSym (s2l "block")); (s [(SSym (s2l "alias")); (s [(SSym (s2l "lit")); (SSym (s2l "<<"))]); (s [(SSym (s2l "lit")); (SSym (s2l "write"))])]); (s [(SSym (s2l "defn")); (SSym (s2l "foo")); (s [(SSym (s2l "args"))]); (s [(SSym (s2l "nil"))])])]));
  (1719, [97; 108; 105; 97; 115; 32; 121; 105; 101; 108; 100; 32; 60; 60; 10; 100; 101; 102; 32; 102; 111; 111; 59; 32; 101; 110; 100]%N, Some (s [(SSym (s2l "block")); (s [(SSym (s2l "alias")); (s [(SSym (s2l "lit")); (SSym (s2l "yield"))]); (s [(SSym (s2l "lit")); (SSym (s2l "<<"))])]); (s [(SSym (s2l "defn")); (SSym (s2l "foo")); (s [(SSym (s2l "args"))]); (s [(SSym (s2l "nil"))])])]));
  (1720, [97; 108; 105; 97; 115; 32; 60; 60; 32; 121; 105; 101; 108; 100; 10; 100; 101; 102; 32; 102; 111; 111; 59; 32; 101; 110; 100]%N, Some (s [(SSym (s2l "block")); (s [(SSym (s2l "alias")); (s [(SSym (s2l "lit")); (SSym (s2l "<<"))]); (s [(SSym (s2l "lit")); (SSym (s2l "yield"))])]); (s [(SSym (s2l "defn")); (SSym (s2l "foo")); (s [(SSym (s2l "args"))]); (s [(SSym (s2l "nil"))])])]));
  (1721, [97; 108; 105; 97; 115; 32; 102; 111; 111; 61; 32; 97; 110; 100; 61; 10; 100; 101; 102; 32; 102; 111; 111; 59; 32; 101; 110; 100]%N, Some (s [(SSym (s2l "block")); (s [(SSym (s2l "alias")); (s [(SSym (s2l "lit")); (SSym (s2l "foo="))]); (s [(SSym (s2l "lit")); (SSym (s2l "and="))])]); (s [(SSym (s2l "defn")); (SSym (s2l "foo")); (s [(SSym (s2l "args"))]); (s [(SSym (s2l "nil"))])])]));
  (1725, (s2l "alias $ZZ $ZAP"), Some (s [(SSym (s2l "valias")); (SSym (s2l "$ZZ")); (SSym (s2l "$ZAP"))]));
  (1726, (s2l "alias $zz $z"), Some (s [(SSym (s2l "valias")); (SSym (s2l "$zz")); (SSym (s2l "$z"))]));
  (1727, (s2l "alias $1 $ABC"), Some (s [(SSym (s2l "valias")); (SSym (s2l "$1")); (SSym (s2l "$ABC"))]));
  (1728, (s2l "alias $& $&"), Some (s [(SSym (s2l "valias")); (SSym (s2l "$&")); (SSym (s2l "$&"))]));
  (1730, (s2l "alias $A A"), None);
  (1731, (s2l "alias $A 1"), None);
  (1732, (s2l "alias $A $1"), None);
  (1736, (s2l "defined? foo"), Some (s [(SSym (s2l "defined")); (s [(SSym (s2l "call")); SNil; (SSym (s2l "foo"))])]));
  (1737, (s2l "defined?(:foo)"), Some (s [(SSym (s2l "defined")); (s [(SSym (s2l "lit")); (SSym (s2l "foo"))])]));
  (1738, (s2l "defined?(:foo) != ""constant"""), Some (s [(SSym (s2l "call")); (s [(SSym (s2l "defined")); (s [(SSym (s2l "lit")); (SSym (s2l "foo"))])]); (SSym (s2l "!=")); (s [(SSym (s2l "str")); (SStr (s2l "constant"))])]));
  (1742, (s2l "x = foo.bar || ->(i) { baz(i) }"), Some (s [(SSym (s2l "lasgn")); (SSym (s2l "x")); (s [(SSym (s2l "or")); (s [(SSym (s2l "call")); (s [(SSym (s2l "call")); SNil; (SSym (s2l "foo"))]); (SSym (s2l "bar"))]); (s [(SSym (s2l "iter")); (s [(SSym (s2l "lambda"))]); (s [(SSym (s2l "args")); (SSym (s2l "i"))]); (s [(SSym (s2l "call")); SNil; (SSym (s2l "baz")); (s [(SSym (s2l "lvar")); (SSym (s2l "i"))])])])])]));
  (1744, (s2l "x = foo.bar || ->(i) do baz(i) end"), Some (s [(SSym (s2l "lasgn")); (SSym (s2l "x")); (s [(SSym (s2l "or")); (s [(SSym (s2l "call")); (s [(SSym (s2l "call")); SNil; (SSym (s2l "foo"))]); (SSym (s2l "bar"))]); (s [(SSym (s2l "iter")); (s [(SSym (s2l "lambda"))]); (s [(SSym (s2l "args")); (SSym (s2l "i"))]); (s [(SSym (s2l "call")); SNil; (SSym (s2l "baz")); (s [(SSym (s2l "lvar")); (SSym (s2l "i"))])])])])]));
  (1746, (s2l "x = foo.bar && ->(i) { baz(i) }"), Some (s [(SSym (s2l "lasgn")); (SSym (s2l "x")); (s [(SSym (s2l "and")); (s [(SSym (s2l "call")); (s [(SSym (s2l "call")); SNil; (SSym (s2l "foo"))]); (SSym (s2l "bar"))]); (s [(SSym (s2l "iter")); (s [(SSym (s2l "lambda"))]); (s [(SSym (s2l "args")); (SSym (s2l "i"))]); (s [(SSym (s2l "call")); SNil; (SSym (s2l "baz")); (s [(SSym (s2l "lvar")); (SSym (s2l "i"))])])])])]));
  (1748, (s2l "x = foo.bar && ->(i) do baz(i) end"), Some (s [(SSym (s2l "lasgn")); (SSym (s2l "x")); (s [(SSym (s2l "and")); (s [(SSym (s2l "call")); (s [(SSym (s2l "call")); SNil; (SSym (s2l "foo"))]); (SSym (s2l "bar"))]); (s [(SSym (s2l "iter")); (s [(SSym (s2l "lambda"))]); (s [(SSym (s2l "args")); (SSym (s2l "i"))]); (s [(SSym (s2l "call")); SNil; (SSym (s2l "baz")); (s [(SSym (s2l "lvar")); (SSym (s2l "i"))])])])])]));
  (1753, (s2l "redo"), Some (s [(SSym (s2l "redo"))]));
  (1757, (s2l "retry"), Some (s [(SSym (s2l "retry"))]));
  (1762, [60; 60; 70; 79; 79; 10; 70; 79; 79]%N, Some (s [(SSym (s2l "str")); (SStr (s2l ""))]));
  (1771, [102; 111; 111; 32; 61; 32; 60; 60; 70; 79; 79; 95; 66; 65; 82; 10; 32; 49; 10; 50; 10; 70; 79; 79; 95; 66; 65; 82; 10]%N, Some (s [(SSym (s2l "lasgn")); (SSym (s2l "foo")); (s [(SSym (s2l "str")); (SStr [32; 49; 10; 50; 10]%N)])]));
  (1780, [102; 111; 111; 40; 49; 44; 32; 60; 60; 45; 102; 111; 111; 44; 32; 50; 41; 10; 32; 49; 10; 50; 10; 32; 32; 102; 111; 111; 10]%N, Some (s [(SSym (s2l "call")); SNil; (SSym (s2l "foo")); (s [(SSym (s2l "lit")); (SInt (1))]); (s [(SSym (s2l "str")); (SStr [32; 49; 10; 50; 10]%N)]); (s [(SSym (s2l "lit")); (SInt (2))])]));
  (1781, [102; 111; 111; 40; 60; 60; 70; 79; 79; 41; 10; 70; 79; 79]%N, Some (s [(SSym (s2l "call")); SNil; (SSym (s2l "foo")); (s [(SSym (s2l "str")); (SStr (s2l ""))])]));
  (1789, [60; 60; 70; 79; 79; 10; 32; 32; 35; 123; 49; 43; 49; 125; 10; 70; 79; 79; 10]%N, Some (s [(SSym (s2l "dstr")); (SStr (s2l "  ")); (s [(SSym (s2l "evstr")); (s [(SSym (s2l "call")); (s [(SSym (s2l "lit")); (SInt (1))]); (SSym (s2l "+")); (s [(SSym (s2l "lit")); (SInt (1))])])]); (s [(SSym (s2l "str")); (SStr [10]%N)])]));
  (1797, [60; 60; 45; 66; 65; 82; 10; 70; 79; 79; 66; 65; 82; 10; 32; 32; 66; 65; 82; 10]%N, Some (s [(SSym (s2l "str")); (SStr [70; 79; 79; 66; 65; 82; 10]%N)]));
  (1805, [60; 60; 79; 79; 84; 80; 195; 156; 84; 10; 104; 101; 108; 108; 111; 32; 117; 110; 105; 99; 111; 100; 101; 10; 79; 79; 84; 80; 195; 156; 84; 10]%N, Some (s [(SSym (s2l "str")); (SStr [104; 101; 108; 108; 111; 32; 117; 110; 105; 99; 111; 100; 101; 10]%N)]));
  (1821, [97; 32; 61; 32; 60; 60; 126; 34; 69; 79; 70; 34; 10; 32; 32; 92; 116; 98; 97; 99; 107; 115; 108; 97; 115; 104; 32; 116; 97; 98; 115; 32; 97; 114; 101; 32; 105; 103; 110; 111; 114; 101; 100; 10; 32; 32; 92; 116; 98; 97; 99; 107; 115; 108; 97; 115; 104; 32; 116; 97; 98; 115; 32; 100; 111; 110; 39; 116; 32; 99; 111; 117; 110; 116; 10; 69; 79; 70; 10]%N, Some (s [(SSym (s2l "lasgn")); (SSym (s2l "a")); (s [(SSym (s2l "str")); (SStr [9; 98; 97; 99; 107; 115; 108; 97; 115; 104; 32; 116; 97; 98; 115; 32; 97; 114; 101; 32; 105; 103; 110; 111; 114; 101; 100; 10; 9; 98; 97; 99; 107; 115; 108; 97; 115; 104; 32; 116; 97; 98; 115; 32; 100; 111; 110; 39; 116; 32; 99; 111; 117; 110; 116; 10]%N)])]));
  (1834, [60; 60; 45; 69; 79; 70; 10; 102; 111; 111; 32; 92; 10; 98; 97; 114; 10; 69; 79; 70; 10]%N, Some (s [(SSym (s2l "str")); (SStr [102; 111; 111; 32; 98; 97; 114; 10]%N)]));
  (1844, [35; 32; 115; 107; 105; 112; 32; 97; 32; 108; 105; 110; 101; 10; 60; 60; 45; 69; 79; 70; 10; 49; 10; 32; 32; 35; 123; 52; 50; 125; 10; 69; 79; 70; 10]%N, Some (s [(SSym (s2l "dstr")); (SStr [49; 10; 32; 32]%N); (s [(SSym (s2l "evstr")); (s [(SSym (s2l "lit")); (SInt (42))])]); (s [(SSym (s2l "str")); (SStr [10]%N)])]));
  (1857, [91; 60; 60; 45; 69; 79; 70; 44; 10; 32; 32; 102; 111; 111; 10; 32; 32; 69; 79; 70; 10; 32; 32; 49; 44; 10; 32; 32; 50; 93; 10]%N, Some (s [(SSym (s2l "array")); (s [(SSym (s2l "str")); (SStr [32; 32; 102; 111; 111; 10]%N)]); (s [(SSym (s2l "lit")); (SInt (1))]); (s [(SSym (s2l "lit")); (SInt (2))])]));
  (1884, (s2l "BEGIN { }"), Some (s [(SSym (s2l "iter")); (s [(SSym (s2l "preexe"))]); (SInt (0))]));
  (1885, (s2l "BEGIN { 1 }"), Some (s [(SSym (s2l "iter")); (s [(SSym (s2l "preexe"))]); (SInt (0)); (s [(SSym (s2l "lit")); (SInt (1))])]));
  (1886, (s2l "BEGIN { 1; 2 }"), Some (s [(SSym (s2l "iter")); (s [(SSym (s2l "preexe"))]); (SInt (0)); (s [(SSym (s2l "block")); (s [(SSym (s2l "lit")); (SInt (1))]); (s [(SSym (s2l "lit")); (SInt (2))])])]));
  (1887, (s2l "END { }"), Some (s [(SSym (s2l "iter")); (s [(SSym (s2l "postexe"))]); (SInt (0))]));
  (1888, (s2l "END { 1 }"), Some (s [(SSym (s2l "iter")); (s [(SSym (s2l "postexe"))]); (SInt (0)); (s [(SSym (s2l "lit")); (SInt (1))])]));
  (1889, (s2l "END { 1; 2 }"), Some (s [(SSym (s2l "iter")); (s [(SSym (s2l "postexe"))]); (SInt (0)); (s [(SSym (s2l "block")); (s [(SSym (s2l "lit")); (SInt (1))]); (s [(SSym (s2l "lit")); (SInt (2))])])]));
  (1890, (s2l "class Foo; END { 1 }; end"), Some (s [(SSym (s2l "class")); (SSym (s2l "Foo")); SNil; (s [(SSym (s2l "iter")); (s [(SSym (s2l "postexe"))]); (SInt (0)); (s [(SSym (s2l "lit")); (SInt (1))])])]));
  (1892, (s2l "class Foo; BEGIN { 1 }; end"), None);
  (1893, (s2l "BEGIN 1"), None);
  (1894, (s2l "BEGIN do 1 end"), None);
  (1895, (s2l "END 1"), None);
  (1896, (s2l "END do 1 end"), None);
  (1900, (s2l "__ENCODING__"), Some (s [(SSym (s2l "colon2")); (s [(SSym (s2l "const")); (SSym (s2l "Encoding"))]); (SSym (s2l "UTF_8"))]));
  (1901, (s2l "__ENCODING__ 1"), None);
  (1902, (s2l "__ENCODING__ do; end"), None);
  (1970, (s2l "foo sel$f: a"), None);
  (1975, (s2l "1"), Some (s [(SSym (s2l "lit")); (SInt (1))]));
  (1979, [239; 187; 191; 102; 111; 111]%N, Some (s [(SSym (s2l "call")); SNil; (SSym (s2l "foo"))]))].
Example parser_test_8_passes : forallb passes parser_test_8 = true.
Proof. vm_compute. reflexivity. Qed.

(** /repo/test/test_ruby_parser.rb, lines 122-2327. *)
Definition ruby_parser_0 : list (N * str * option sexp) := [
  (122, (s2l "BEGIN { 42 }"), Some (s [(SSym (s2l "iter")); (s [(SSym (s2l "preexe"))]); (SInt (0)); (s [(SSym (s2l "lit")); (SInt (42))])]));
  (129, [99; 108; 97; 115; 115; 32; 70; 111; 111; 10; 32; 32; 66; 69; 71; 73; 78; 32; 123; 10; 32; 32; 32; 32; 52; 50; 10; 32; 32; 125; 10; 101; 110; 100]%N, None);
  (135, (s2l "__ENCODING__"), Some (s [(SSym (s2l "colon2")); (s [(SSym (s2l "const")); (SSym (s2l "Encoding"))]); (SSym (s2l "UTF_8"))]));
  (142, (s2l "alias $MATCH $&"), Some (s [(SSym (s2l "valias")); (SSym (s2l "$MATCH")); (SSym (s2l "$&"))]));
  (149, (s2l "alias in out"), Some (s [(SSym (s2l "alias")); (s [(SSym (s2l "lit")); (SSym (s2l "in"))]); (s [(SSym (s2l "lit")); (SSym (s2l "out"))])]));
  (156, [116; 114; 117; 101; 32; 97; 110; 100; 10; 110; 111; 116; 32; 102; 97; 108; 115; 101; 32; 97; 110; 100; 10; 116; 114; 117; 101]%N, Some (s [(SSym (s2l "and")); (s [(SSym (s2l "true"))]); (sl 2 [(SSym (s2l "and")); (sl 2 [(SSym (s2l "call")); (sl 2 [(SSym (s2l "false"))]); (SSym (s2l "!"))]); (sl 3 [(SSym (s2l "true"))])])]));
  (167, (s2l "[1 => 2]"), Some (s [(SSym (s2l "array")); (s [(SSym (s2l "bare_hash")); (s [(SSym (s2l "lit")); (SInt (1))]); (s [(SSym (s2l "lit")); (SInt (2))])])]));
  (174, [91; 10; 39; 97; 39; 44; 10; 39; 98; 39; 93; 10; 49]%N, Some (sl 1 [(SSym (s2l "block")); (s [(SSym (s2l "array")); (sl 2 [(SSym (s2l "str")); (SStr (s2l "a"))]); (sl 3 [(SSym (s2l "str")); (SStr (s2l "b"))])]); (sl 4 [(SSym (s2l "lit")); (SInt (1))])]));
  (195, (s2l "A::b = 1"), Some (s [(SSym (s2l "attrasgn")); (s [(SSym (s2l "const")); (SSym (s2l "A"))]); (SSym (s2l "b=")); (s [(SSym (s2l "lit")); (SInt (1))])]));
  (202, (s2l "a[[1, 2]] = 3"), Some (s [(SSym (s2l "attrasgn")); (s [(SSym (s2l "call")); SNil; (SSym (s2l "a"))]); (SSym (s2l "[]=")); (s [(SSym (s2l "array")); (s [(SSym (s2l "lit")); (SInt (1))]); (s [(SSym (s2l "lit")); (SInt (2))])]); (s [(SSym (s2l "lit")); (SInt (3))])]));
  (215, (s2l "[1, 2, 3, 4][from .. to] = [""a"", ""b"", ""c""]"), Some (s [(SSym (s2l "attrasgn")); (s [(SSym (s2l "array")); (s [(SSym (s2l "lit")); (SInt (1))]); (s [(SSym (s2l "lit")); (SInt (2))]); (s [(SSym (s2l "lit")); (SInt (3))]); (s [(SSym (s2l "lit")); (SInt (4))])]); (SSym (s2l "[]=")); (s [(SSym (s2l "dot2")); (s [(SSym (s2l "call")); SNil; (SSym (s2l "from"))]); (s [(SSym (s2l "call")); SNil; (SSym (s2l "to"))])]); (s [(SSym (s2l "array")); (s [(SSym (s2l "str")); (SStr (s2l "a"))]); (s [(SSym (s2l "str")); (SStr (s2l "b"))]); (s [(SSym (s2l "str")); (SStr (s2l "c"))])])]));
  (228, (s2l "a.B = 1"), Some (s [(SSym (s2l "attrasgn")); (s [(SSym (s2l "call")); SNil; (SSym (s2l "a"))]); (SSym (s2l "B=")); (s [(SSym (s2l "lit")); (SInt (1))])]));
  (235, (s2l "x `#{y}`"), Some (s [(SSym (s2l "call")); SNil; (SSym (s2l "x")); (s [(SSym (s2l "dxstr")); (SStr (s2l "")); (s [(SSym (s2l "evstr")); (s [(SSym (s2l "call")); SNil; (SSym (s2l "y"))])])])]));
  (261, [98; 101; 103; 105; 110; 10; 101; 110; 115; 117; 114; 101; 10; 101; 110; 100]%N, Some (s [(SSym (s2l "ensure")); (s [(SSym (s2l "nil"))])]));
  (269, [98; 101; 103; 105; 110; 10; 114; 101; 115; 99; 117; 101; 10; 101; 110; 115; 117; 114; 101; 10; 101; 110; 100]%N, Some (s [(SSym (s2l "ensure")); (s [(SSym (s2l "rescue")); (s [(SSym (s2l "resbody")); (s [(SSym (s2l "array"))]); SNil])]); (s [(SSym (s2l "nil"))])]));
  (282, [98; 101; 103; 105; 110; 10; 32; 32; 49; 10; 114; 101; 115; 99; 117; 101; 10; 32; 32; 50; 10; 101; 108; 115; 101; 10; 32; 32; 51; 10; 101; 110; 115; 117; 114; 101; 10; 32; 32; 52; 10; 101; 110; 100]%N, Some (sl 1 [(SSym (s2l "ensure")); (sl 1 [(SSym (s2l "rescue")); (sl 2 [(SSym (s2l "lit")); (SInt (1))]); (sl 3 [(SSym (s2l "resbody")); (sl 3 [(SSym (s2l "array"))]); (sl 4 [(SSym (s2l "lit")); (SInt (2))])]); (sl 6 [(SSym (s2l "lit")); (SInt (3))])]); (sl 8 [(SSym (s2l "lit")); (SInt (4))])]));
  (297, [98; 101; 103; 105; 110; 10; 10; 114; 101; 115; 99; 117; 101; 10; 10; 101; 108; 115; 101; 10; 10; 101; 110; 115; 117; 114; 101; 10; 10; 101; 110; 100]%N, Some (sl 1 [(SSym (s2l "ensure")); (sl 1 [(SSym (s2l "rescue")); (sl 3 [(SSym (s2l "resbody")); (sl 3 [(SSym (s2l "array"))]); SNil])]); (sl 1 [(SSym (s2l "nil"))])]));
  (374, (s2l "f { |(*a)| }"), Some (s [(SSym (s2l "iter")); (s [(SSym (s2l "call")); SNil; (SSym (s2l "f"))]); (s [(SSym (s2l "args")); (s [(SSym (s2l "masgn")); (SSym (s2l "*a"))])])]));
  (397, (s2l "m () {}"), Some (s [(SSym (s2l "iter")); (s [(SSym (s2l "call")); SNil; (SSym (s2l "m")); (s [(SSym (s2l "nil"))])]); (SInt (0))]));
  (416, (s2l "p ()..nil"), Some (s [(SSym (s2l "call")); SNil; (SSym (s2l "p")); (s [(SSym (s2l "dot2")); (s [(SSym (s2l "nil"))]); (s [(SSym (s2l "nil"))])])]));
  (423, (s2l "%r'\''"), Some (s [(SSym (s2l "lit")); (SRegexp (s2l "'") 0)]));
  (434, (s2l "a ? '': b"), Some (s [(SSym (s2l "if")); (s [(SSym (s2l "call")); SNil; (SSym (s2l "a"))]); (s [(SSym (s2l "str")); (SStr (s2l ""))]); (s [(SSym (s2l "call")); SNil; (SSym (s2l "b"))])]));
  (434, (s2l "a ? """": b"), Some (s [(SSym (s2l "if")); (s [(SSym (s2l "call")); SNil; (SSym (s2l "a"))]); (s [(SSym (s2l "str")); (SStr (s2l ""))]); (s [(SSym (s2l "call")); SNil; (SSym (s2l "b"))])]));
  (454, (s2l "x{|a|}"), Some (s [(SSym (s2l "iter")); (s [(SSym (s2l "call")); SNil; (SSym (s2l "x"))]); (s [(SSym (s2l "args")); (SSym (s2l "a"))])]));
  (454, (s2l "x{|a,|}"), Some (s [(SSym (s2l "iter")); (s [(SSym (s2l "call")); SNil; (SSym (s2l "x"))]); (s [(SSym (s2l "args")); (SSym (s2l "a")); SNil])]));
  (474, (s2l "true and []"), Some (s [(SSym (s2l "and")); (s [(SSym (s2l "true"))]); (s [(SSym (s2l "array"))])]));
  (474, [116; 114; 117; 101; 32; 97; 110; 100; 10; 116; 114; 117; 101]%N, Some (s [(SSym (s2l "and")); (s [(SSym (s2l "true"))]); (sl 2 [(SSym (s2l "true"))])]));
  (486, (s2l "f { |(a, b), c| }"), Some (s [(SSym (s2l "iter")); (s [(SSym (s2l "call")); SNil; (SSym (s2l "f"))]); (s [(SSym (s2l "args")); (s [(SSym (s2l "masgn")); (SSym (s2l "a")); (SSym (s2l "b"))]); (SSym (s2l "c"))])]));
  (495, (s2l "f { |((a, b), c), d| }"), Some (s [(SSym (s2l "iter")); (s [(SSym (s2l "call")); SNil; (SSym (s2l "f"))]); (s [(SSym (s2l "args")); (s [(SSym (s2l "masgn")); (s [(SSym (s2l "masgn")); (SSym (s2l "a")); (SSym (s2l "b"))]); (SSym (s2l "c"))]); (SSym (s2l "d"))])]));
  (513, (s2l "g ( 1), 2"), Some (s [(SSym (s2l "call")); SNil; (SSym (s2l "g")); (s [(SSym (s2l "lit")); (SInt (1))]); (s [(SSym (s2l "lit")); (SInt (2))])]));
  (513, [32; 32; 32; 32; 32; 32; 100; 101; 102; 32; 102; 10; 32; 32; 32; 32; 32; 32; 32; 32; 103; 32; 40; 32; 49; 41; 44; 32; 50; 10; 32; 32; 32; 32; 32; 32; 101; 110; 100; 10]%N, Some (s [(SSym (s2l "defn")); (SSym (s2l "f")); (s [(SSym (s2l "args"))]); (sl 2 [(SSym (s2l "call")); SNil; (SSym (s2l "g")); (sl 2 [(SSym (s2l "lit")); (SInt (1))]); (sl 2 [(SSym (s2l "lit")); (SInt (2))])])]));
  (513, [32; 32; 32; 32; 32; 32; 100; 101; 102; 32; 102; 40; 41; 10; 32; 32; 32; 32; 32; 32; 32; 32; 103; 32; 40; 49; 41; 44; 32; 50; 10; 32; 32; 32; 32; 32; 32; 101; 110; 100; 10]%N, Some (s [(SSym (s2l "defn")); (SSym (s2l "f")); (s [(SSym (s2l "args"))]); (sl 2 [(SSym (s2l "call")); SNil; (SSym (s2l "g")); (sl 2 [(SSym (s2l "lit")); (SInt (1))]); (sl 2 [(SSym (s2l "lit")); (SInt (2))])])]));
  (539, (s2l "case :x; when /x/ then end"), Some (s [(SSym (s2l "case")); (s [(SSym (s2l "lit")); (SSym (s2l "x"))]); (s [(SSym (s2l "when")); (s [(SSym (s2l "array")); (s [(SSym (s2l "lit")); (SRegexp (s2l "x") 0)])]); SNil]); SNil]));
  (548, (s2l "if test ?d, dir then end"), Some (s [(SSym (s2l "if")); (s [(SSym (s2l "call")); SNil; (SSym (s2l "test")); (s [(SSym (s2l "str")); (SStr (s2l "d"))]); (s [(SSym (s2l "call")); SNil; (SSym (s2l "dir"))])]); SNil; SNil]));
  (567, (s2l "case; when %r%blahblah%; end"), Some (s [(SSym (s2l "case")); SNil; (s [(SSym (s2l "when")); (s [(SSym (s2l "array")); (s [(SSym (s2l "lit")); (SRegexp (s2l "blahblah") 0)])]); SNil]); SNil]));
  (574, (s2l "f { |a, (b, c)| }"), Some (s [(SSym (s2l "iter")); (s [(SSym (s2l "call")); SNil; (SSym (s2l "f"))]); (s [(SSym (s2l "args")); (SSym (s2l "a")); (s [(SSym (s2l "masgn")); (SSym (s2l "b")); (SSym (s2l "c"))])])]));
  (583, (s2l "not(a)"), Some (s [(SSym (s2l "call")); (s [(SSym (s2l "call")); SNil; (SSym (s2l "a"))]); (SSym (s2l "!"))]));
  (590, (s2l "a ||= b rescue nil"), Some (s [(SSym (s2l "op_asgn_or")); (s [(SSym (s2l "lvar")); (SSym (s2l "a"))]); (s [(SSym (s2l "lasgn")); (SSym (s2l "a")); (s [(SSym (s2l "rescue")); (s [(SSym (s2l "call")); SNil; (SSym (s2l "b"))]); (s [(SSym (s2l "resbody")); (s [(SSym (s2l "array"))]); (s [(SSym (s2l "nil"))])])])])]));
  (602, (s2l "1 & 2"), Some (s [(SSym (s2l "call")); (s [(SSym (s2l "lit")); (SInt (1))]); (SSym (s2l "&")); (s [(SSym (s2l "lit")); (SInt (2))])]));
  (609, (s2l "a.b c.d 1"), Some (s [(SSym (s2l "call")); (s [(SSym (s2l "call")); SNil; (SSym (s2l "a"))]); (SSym (s2l "b")); (s [(SSym (s2l "call")); (s [(SSym (s2l "call")); SNil; (SSym (s2l "c"))]); (SSym (s2l "d")); (s [(SSym (s2l "lit")); (SInt (1))])])]));
  (618, (s2l "1 == [:b, :c]"), Some (s [(SSym (s2l "call")); (s [(SSym (s2l "lit")); (SInt (1))]); (SSym (s2l "==")); (s [(SSym (s2l "array")); (s [(SSym (s2l "lit")); (SSym (s2l "b"))]); (s [(SSym (s2l "lit")); (SSym (s2l "c"))])])]));
  (632, (s2l "1 !~ 2"), Some (s [(SSym (s2l "not")); (s [(SSym (s2l "call")); (s [(SSym (s2l "lit")); (SInt (1))]); (SSym (s2l "=~")); (s [(SSym (s2l "lit")); (SInt (2))])])]));
  (639, (s2l "1 ^ 2"), Some (s [(SSym (s2l "call")); (s [(SSym (s2l "lit")); (SInt (1))]); (SSym (s2l "^")); (s [(SSym (s2l "lit")); (SInt (2))])]));
  (646, (s2l "A::b"), Some (s [(SSym (s2l "call")); (s [(SSym (s2l "const")); (SSym (s2l "A"))]); (SSym (s2l "b"))]));
  (653, (s2l "1 / 2"), Some (s [(SSym (s2l "call")); (s [(SSym (s2l "lit")); (SInt (1))]); (SSym (s2l "/")); (s [(SSym (s2l "lit")); (SInt (2))])]));
  (669, (s2l "1 === 2"), Some (s [(SSym (s2l "call")); (s [(SSym (s2l "lit")); (SInt (1))]); (SSym (s2l "===")); (s [(SSym (s2l "lit")); (SInt (2))])]));
  (676, (s2l "1 > 2"), Some (s [(SSym (s2l "call")); (s [(SSym (s2l "lit")); (SInt (1))]); (SSym (s2l ">")); (s [(SSym (s2l "lit")); (SInt (2))])]));
  (683, (s2l "1 < 2"), Some (s [(SSym (s2l "call")); (s [(SSym (s2l "lit")); (SInt (1))]); (SSym (s2l "<")); (s [(SSym (s2l "lit")); (SInt (2))])]));
  (690, (s2l "1 <= 2"), Some (s [(SSym (s2l "call")); (s [(SSym (s2l "lit")); (SInt (1))]); (SSym (s2l "<=")); (s [(SSym (s2l "lit")); (SInt (2))])]));
  (704, (s2l "1 | 2"), Some (s [(SSym (s2l "call")); (s [(SSym (s2l "lit")); (SInt (1))]); (SSym (s2l "|")); (s [(SSym (s2l "lit")); (SInt (2))])]));
  (711, (s2l "1 >> 2"), Some (s [(SSym (s2l "call")); (s [(SSym (s2l "lit")); (SInt (1))]); (SSym (s2l ">>")); (s [(SSym (s2l "lit")); (SInt (2))])]));
  (718, (s2l "self[1]"), Some (s [(SSym (s2l "call")); (s [(SSym (s2l "self"))]); (SSym (s2l "[]")); (s [(SSym (s2l "lit")); (SInt (1))])]));
  (725, (s2l "1 <=> 2"), Some (s [(SSym (s2l "call")); (s [(SSym (s2l "lit")); (SInt (1))]); (SSym (s2l "<=>")); (s [(SSym (s2l "lit")); (SInt (2))])]));
  (732, (s2l "1 * 2"), Some (s [(SSym (s2l "call")); (s [(SSym (s2l "lit")); (SInt (1))]); (SSym (s2l "*")); (s [(SSym (s2l "lit")); (SInt (2))])]));
  (739, (s2l "1 ** 2"), Some (s [(SSym (s2l "call")); (s [(SSym (s2l "lit")); (SInt (1))]); (SSym (s2l "**")); (s [(SSym (s2l "lit")); (SInt (2))])]));
  (753, [35; 32; 98; 108; 97; 104; 32; 49; 10; 35; 32; 98; 108; 97; 104; 32; 50; 10; 99; 108; 97; 115; 115; 32; 88; 10; 32; 32; 35; 32; 98; 108; 97; 104; 32; 51; 10; 32; 32; 100; 101; 102; 32; 98; 108; 97; 104; 10; 32; 32; 32; 32; 35; 32; 98; 108; 97; 104; 32; 52; 10; 32; 32; 101; 110; 100; 10; 101; 110; 100]%N, Some (sl 3 [(SSym (s2l "class")); (SSym (s2l "X")); SNil; (sl 5 [(SSym (s2l "defn")); (SSym (s2l "blah")); (sl 5 [(SSym (s2l "args"))]); (sl 5 [(SSym (s2l "nil"))])])]));
  (764, (s2l "if -1; end"), Some (s [(SSym (s2l "if")); (s [(SSym (s2l "lit")); (SInt (-1))]); SNil; SNil]));
  (771, [97; 32; 100; 111; 10; 32; 32; 118; 32; 61; 32; 110; 105; 108; 10; 32; 32; 98; 101; 103; 105; 110; 10; 32; 32; 32; 32; 121; 105; 101; 108; 100; 10; 32; 32; 114; 101; 115; 99; 117; 101; 32; 69; 120; 99; 101; 112; 116; 105; 111; 110; 32; 61; 62; 32; 118; 10; 32; 32; 32; 32; 98; 114; 101; 97; 107; 10; 32; 32; 101; 110; 100; 10; 101; 110; 100]%N, Some (s [(SSym (s2l "iter")); (s [(SSym (s2l "call")); SNil; (SSym (s2l "a"))]); (SInt (0)); (s [(SSym (s2l "block")); (s [(SSym (s2l "lasgn")); (SSym (s2l "v")); (s [(SSym (s2l "nil"))])]); (s [(SSym (s2l "rescue")); (s [(SSym (s2l "yield"))]); (s [(SSym (s2l "resbody")); (s [(SSym (s2l "array")); (s [(SSym (s2l "const")); (SSym (s2l "Exception"))]); (s [(SSym (s2l "lasgn")); (SSym (s2l "v")); (s [(SSym (s2l "gvar")); (SSym (s2l "$!"))])])]); (s [(SSym (s2l "break"))])])])])]));
  (788, (s2l "defined?(42)"), Some (s [(SSym (s2l "defined")); (s [(SSym (s2l "lit")); (SInt (42))])]));
  (795, [35; 32; 98; 108; 97; 104; 32; 49; 10; 35; 32; 98; 108; 97; 104; 32; 50; 10; 10; 100; 101; 102; 32; 98; 108; 97; 104; 10; 101; 110; 100]%N, Some (sl 4 [(SSym (s2l "defn")); (SSym (s2l "blah")); (sl 4 [(SSym (s2l "args"))]); (sl 4 [(SSym (s2l "nil"))])]));
  (803, (s2l "def self.return; end"), Some (s [(SSym (s2l "defs")); (s [(SSym (s2l "self"))]); (SSym (s2l "return")); (s [(SSym (s2l "args"))]); (s [(SSym (s2l "nil"))])]));
  (810, (s2l "p def self.b; x.y do; end; end"), Some (s [(SSym (s2l "call")); SNil; (SSym (s2l "p")); (s [(SSym (s2l "defs")); (s [(SSym (s2l "self"))]); (SSym (s2l "b")); (s [(SSym (s2l "args"))]); (s [(SSym (s2l "iter")); (s [(SSym (s2l "call")); (s [(SSym (s2l "call")); SNil; (SSym (s2l "x"))]); (SSym (s2l "y"))]); (SInt (0))])])]));
  (821, [35; 32; 98; 108; 97; 104; 32; 49; 10; 35; 32; 98; 108; 97; 104; 32; 50; 10; 10; 100; 101; 102; 32; 115; 101; 108; 102; 46; 98; 108; 97; 104; 10; 101; 110; 100]%N, Some (sl 4 [(SSym (s2l "defs")); (sl 4 [(SSym (s2l "self"))]); (SSym (s2l "blah")); (sl 4 [(SSym (s2l "args"))]); (sl 4 [(SSym (s2l "nil"))])]));
  (830, [97; 32; 49; 10; 97; 46; 98; 32; 100; 111; 32; 124; 99; 124; 10; 32; 32; 35; 32; 100; 111; 32; 110; 111; 116; 104; 105; 110; 103; 10; 101; 110; 100]%N, Some (s [(SSym (s2l "block")); (s [(SSym (s2l "call")); SNil; (SSym (s2l "a")); (s [(SSym (s2l "lit")); (SInt (1))])]); (sl 2 [(SSym (s2l "iter")); (sl 2 [(SSym (s2l "call")); (sl 2 [(SSym (s2l "call")); SNil; (SSym (s2l "a"))]); (SSym (s2l "b"))]); (sl 2 [(SSym (s2l "args")); (SSym (s2l "c"))])])]));
  (877, (s2l """#{'a'}#{b}"""), Some (s [(SSym (s2l "dstr")); (SStr (s2l "a")); (s [(SSym (s2l "evstr")); (s [(SSym (s2l "call")); SNil; (SSym (s2l "b"))])])]));
  (884, (s2l ":""#{field}"""), Some (s [(SSym (s2l "dsym")); (SStr (s2l "")); (s [(SSym (s2l "evstr")); (s [(SSym (s2l "call")); SNil; (SSym (s2l "field"))])])]));
  (891, (s2l """#{'a'} b"""), Some (s [(SSym (s2l "str")); (SStr (s2l "a b"))]));
  (898, (s2l "alias :<< :>>"), Some (s [(SSym (s2l "alias")); (s [(SSym (s2l "lit")); (SSym (s2l "<<"))]); (s [(SSym (s2l "lit")); (SSym (s2l ">>"))])]));
  (898, (s2l "alias :""<<"" :"">>"""), Some (s [(SSym (s2l "alias")); (s [(SSym (s2l "lit")); (SSym (s2l "<<"))]); (s [(SSym (s2l "lit")); (SSym (s2l ">>"))])]));
  (913, [49; 10; 61; 98; 101; 103; 105; 110; 10; 99; 111; 109; 109; 101; 110; 116; 10; 99; 111; 109; 109; 101; 110; 116; 10; 61; 101; 110; 100; 10; 50]%N, Some (s [(SSym (s2l "block")); (s [(SSym (s2l "lit")); (SInt (1))]); (sl 6 [(SSym (s2l "lit")); (SInt (2))])]));
  (922, [104; 91; 107; 93; 61; 98; 101; 103; 105; 110; 10; 32; 32; 32; 32; 32; 32; 32; 52; 50; 10; 32; 32; 32; 32; 32; 101; 110; 100]%N, Some (s [(SSym (s2l "attrasgn")); (s [(SSym (s2l "call")); SNil; (SSym (s2l "h"))]); (SSym (s2l "[]=")); (s [(SSym (s2l "call")); SNil; (SSym (s2l "k"))]); (sl 2 [(SSym (s2l "lit")); (SInt (42))])]));
  (931, (s2l """#{a}#{b}"""), Some (s [(SSym (s2l "dstr")); (SStr (s2l "")); (s [(SSym (s2l "evstr")); (s [(SSym (s2l "call")); SNil; (SSym (s2l "a"))])]); (s [(SSym (s2l "evstr")); (s [(SSym (s2l "call")); SNil; (SSym (s2l "b"))])])]));
  (938, (s2l """#{a} b"""), Some (s [(SSym (s2l "dstr")); (SStr (s2l "")); (s [(SSym (s2l "evstr")); (s [(SSym (s2l "call")); SNil; (SSym (s2l "a"))])]); (s [(SSym (s2l "str")); (SStr (s2l " b"))])]));
  (978, [99; 32; 61; 32; 60; 60; 39; 67; 67; 67; 39; 10; 108; 105; 110; 101; 50; 10; 108; 105; 110; 101; 51; 10; 108; 105; 110; 101; 52; 10; 67; 67; 67; 10; 10; 100; 32; 61; 32; 52; 50]%N, Some (s [(SSym (s2l "block")); (s [(SSym (s2l "lasgn")); (SSym (s2l "c")); (s [(SSym (s2l "str")); (SStr [108; 105; 110; 101; 50; 10; 108; 105; 110; 101; 51; 10; 108; 105; 110; 101; 52; 10]%N)])]); (sl 7 [(SSym (s2l "lasgn")); (SSym (s2l "d")); (sl 7 [(SSym (s2l "lit")); (SInt (42))])])]));
  (987, [37; 87; 40; 97; 92; 110; 98; 10; 99; 32; 100; 10; 101; 92; 10; 102; 10; 103; 121; 32; 104; 92; 121; 32; 105; 92; 121; 41]%N, Some (s [(SSym (s2l "array")); (s [(SSym (s2l "str")); (SStr [97; 10; 98]%N)]); (s [(SSym (s2l "str")); (SStr (s2l "c"))]); (s [(SSym (s2l "str")); (SStr (s2l "d"))]); (s [(SSym (s2l "str")); (SStr [101; 10; 102]%N)]); (s [(SSym (s2l "str")); (SStr (s2l "gy"))]); (s [(SSym (s2l "str")); (SStr (s2l "hy"))]); (s [(SSym (s2l "str")); (SStr (s2l "iy"))])]));
  (1009, [60; 60; 79; 79; 84; 80; 195; 156; 84; 10; 46; 10; 79; 79; 84; 80; 195; 156; 84; 10]%N, Some (s [(SSym (s2l "str")); (SStr [46; 10]%N)]));
  (1016, [60; 60; 69; 79; 83; 10; 102; 111; 111; 92; 114; 98; 97; 114; 10; 98; 97; 122; 92; 114; 10; 69; 79; 83; 10]%N, Some (s [(SSym (s2l "str")); (SStr [102; 111; 111; 13; 98; 97; 114; 10; 98; 97; 122; 13; 10]%N)]));
  (1090, [60; 60; 45; 72; 69; 82; 69; 68; 79; 67; 10; 35; 36; 123; 10; 72; 69; 82; 69; 68; 79; 67]%N, Some (s [(SSym (s2l "str")); (SStr [35; 36; 123; 10]%N)]));
  (1162, (s2l "if 1; elsif 2; end"), Some (s [(SSym (s2l "if")); (s [(SSym (s2l "lit")); (SInt (1))]); SNil; (s [(SSym (s2l "if")); (s [(SSym (s2l "lit")); (SInt (2))]); SNil; SNil])]));
  (1169, (s2l "if f :x; end"), Some (s [(SSym (s2l "if")); (s [(SSym (s2l "call")); SNil; (SSym (s2l "f")); (s [(SSym (s2l "lit")); (SSym (s2l "x"))])]); SNil; SNil]));
  (1176, (s2l "a[] += b"), Some (s [(SSym (s2l "op_asgn1")); (s [(SSym (s2l "call")); SNil; (SSym (s2l "a"))]); SNil; (SSym (s2l "+")); (s [(SSym (s2l "call")); SNil; (SSym (s2l "b"))])]));
  (1183, [37; 87; 40; 10; 97; 10; 98; 10; 41; 10; 49]%N, Some (s [(SSym (s2l "block")); (s [(SSym (s2l "array")); (sl 2 [(SSym (s2l "str")); (SStr (s2l "a"))]); (sl 3 [(SSym (s2l "str")); (SStr (s2l "b"))])]); (sl 5 [(SSym (s2l "lit")); (SInt (1))])]));
  (1193, (s2l "f { |a,b| }"), Some (s [(SSym (s2l "iter")); (s [(SSym (s2l "call")); SNil; (SSym (s2l "f"))]); (s [(SSym (s2l "args")); (SSym (s2l "a")); (SSym (s2l "b"))])]));
  (1200, (s2l "f { |a, (b, c), d| }"), Some (s [(SSym (s2l "iter")); (s [(SSym (s2l "call")); SNil; (SSym (s2l "f"))]); (s [(SSym (s2l "args")); (SSym (s2l "a")); (s [(SSym (s2l "masgn")); (SSym (s2l "b")); (SSym (s2l "c"))]); (SSym (s2l "d"))])]));
  (1207, [95; 98; 117; 102; 32; 60; 60; 32; 39; 58; 10; 39]%N, Some (s [(SSym (s2l "call")); (s [(SSym (s2l "call")); SNil; (SSym (s2l "_buf"))]); (SSym (s2l "<<")); (s [(SSym (s2l "str")); (SStr [58; 10]%N)])]));
  (1214, (s2l "a = 1 rescue 2"), Some (s [(SSym (s2l "lasgn")); (SSym (s2l "a")); (s [(SSym (s2l "rescue")); (s [(SSym (s2l "lit")); (SInt (1))]); (s [(SSym (s2l "resbody")); (s [(SSym (s2l "array"))]); (s [(SSym (s2l "lit")); (SInt (2))])])])]));
  (1221, (s2l "a = b(1) rescue 2"), Some (s [(SSym (s2l "lasgn")); (SSym (s2l "a")); (s [(SSym (s2l "rescue")); (s [(SSym (s2l "call")); SNil; (SSym (s2l "b")); (s [(SSym (s2l "lit")); (SInt (1))])]); (s [(SSym (s2l "resbody")); (s [(SSym (s2l "array"))]); (s [(SSym (s2l "lit")); (SInt (2))])])])]));
  (1231, (s2l "a = b.c 1"), Some (s [(SSym (s2l "lasgn")); (SSym (s2l "a")); (s [(SSym (s2l "call")); (s [(SSym (s2l "call")); SNil; (SSym (s2l "b"))]); (SSym (s2l "c")); (s [(SSym (s2l "lit")); (SInt (1))])])]));
  (1463, [35; 101; 110; 99; 111; 100; 105; 110; 103; 58; 32; 98; 117; 110; 107; 10; 48]%N, Some (sl 2 [(SSym (s2l "lit")); (SInt (0))]));
  (1470, [239; 187; 191; 35; 33; 47; 117; 115; 114; 47; 98; 105; 110; 47; 101; 110; 118; 32; 114; 117; 98; 121; 32; 45; 119; 10; 112; 32; 48; 10]%N, Some (sl 2 [(SSym (s2l "call")); SNil; (SSym (s2l "p")); (sl 2 [(SSym (s2l "lit")); (SInt (0))])]));
  (1477, (s2l "a, b::c = d"), Some (s [(SSym (s2l "masgn")); (s [(SSym (s2l "array")); (s [(SSym (s2l "lasgn")); (SSym (s2l "a"))]); (s [(SSym (s2l "attrasgn")); (s [(SSym (s2l "call")); SNil; (SSym (s2l "b"))]); (SSym (s2l "c="))])]); (s [(SSym (s2l "to_ary")); (s [(SSym (s2l "call")); SNil; (SSym (s2l "d"))])])]));
  (1491, (s2l "a, b.C = d"), Some (s [(SSym (s2l "masgn")); (s [(SSym (s2l "array")); (s [(SSym (s2l "lasgn")); (SSym (s2l "a"))]); (s [(SSym (s2l "attrasgn")); (s [(SSym (s2l "call")); SNil; (SSym (s2l "b"))]); (SSym (s2l "C="))])]); (s [(SSym (s2l "to_ary")); (s [(SSym (s2l "call")); SNil; (SSym (s2l "d"))])])]));
  (1520, (s2l "a, = b.c 1"), Some (s [(SSym (s2l "masgn")); (s [(SSym (s2l "array")); (s [(SSym (s2l "lasgn")); (SSym (s2l "a"))])]); (s [(SSym (s2l "to_ary")); (s [(SSym (s2l "call")); (s [(SSym (s2l "call")); SNil; (SSym (s2l "b"))]); (SSym (s2l "c")); (s [(SSym (s2l "lit")); (SInt (1))])])])]));
  (1529, (s2l "((a,b))=c"), Some (s [(SSym (s2l "masgn")); (s [(SSym (s2l "array")); (s [(SSym (s2l "masgn")); (s [(SSym (s2l "array")); (s [(SSym (s2l "lasgn")); (SSym (s2l "a"))]); (s [(SSym (s2l "lasgn")); (SSym (s2l "b"))])])])]); (s [(SSym (s2l "to_ary")); (s [(SSym (s2l "call")); SNil; (SSym (s2l "c"))])])]));
  (1538, (s2l "*a = 1, 2, 3"), Some (s [(SSym (s2l "masgn")); (s [(SSym (s2l "array")); (s [(SSym (s2l "splat")); (s [(SSym (s2l "lasgn")); (SSym (s2l "a"))])])]); (s [(SSym (s2l "array")); (s [(SSym (s2l "lit")); (SInt (1))]); (s [(SSym (s2l "lit")); (SInt (2))]); (s [(SSym (s2l "lit")); (SInt (3))])])]));
  (1547, (s2l "(a, b) = c.d"), Some (s [(SSym (s2l "masgn")); (s [(SSym (s2l "array")); (s [(SSym (s2l "lasgn")); (SSym (s2l "a"))]); (s [(SSym (s2l "lasgn")); (SSym (s2l "b"))])]); (s [(SSym (s2l "to_ary")); (s [(SSym (s2l "call")); (s [(SSym (s2l "call")); SNil; (SSym (s2l "c"))]); (SSym (s2l "d"))])])]));
  (1556, (s2l "* = 1"), Some (s [(SSym (s2l "masgn")); (s [(SSym (s2l "array")); (s [(SSym (s2l "splat"))])]); (s [(SSym (s2l "to_ary")); (s [(SSym (s2l "lit")); (SInt (1))])])]));
  (1565, [35; 32; 98; 108; 97; 104; 32; 49; 10; 32; 32; 10; 32; 32; 35; 32; 98; 108; 97; 104; 32; 50; 10; 10; 109; 111; 100; 117; 108; 101; 32; 88; 10; 32; 32; 35; 32; 98; 108; 97; 104; 32; 51; 10; 32; 32; 100; 101; 102; 32; 98; 108; 97; 104; 10; 32; 32; 32; 32; 35; 32; 98; 108; 97; 104; 32; 52; 10; 32; 32; 101; 110; 100; 10; 101; 110; 100]%N, Some (sl 5 [(SSym (s2l "module")); (SSym (s2l "X")); (sl 7 [(SSym (s2l "defn")); (SSym (s2l "blah")); (sl 7 [(SSym (s2l "args"))]); (sl 7 [(SSym (s2l "nil"))])])]));
  (1575, [37; 119; 40; 10; 97; 10; 98; 10; 41; 10; 49]%N, Some (s [(SSym (s2l "block")); (s [(SSym (s2l "array")); (sl 2 [(SSym (s2l "str")); (SStr (s2l "a"))]); (sl 3 [(SSym (s2l "str")); (SStr (s2l "b"))])]); (sl 5 [(SSym (s2l "lit")); (SInt (1))])]));
  (1601, (s2l "a[:b] ||= c 1, 2"), Some (s [(SSym (s2l "op_asgn1")); (s [(SSym (s2l "call")); SNil; (SSym (s2l "a"))]); (s [(SSym (s2l "arglist")); (s [(SSym (s2l "lit")); (SSym (s2l "b"))])]); (SSym (s2l "||")); (s [(SSym (s2l "call")); SNil; (SSym (s2l "c")); (s [(SSym (s2l "lit")); (SInt (1))]); (s [(SSym (s2l "lit")); (SInt (2))])])]));
  (1617, (s2l "a = b, *c, d"), Some (s [(SSym (s2l "lasgn")); (SSym (s2l "a")); (s [(SSym (s2l "svalue")); (s [(SSym (s2l "array")); (s [(SSym (s2l "call")); SNil; (SSym (s2l "b"))]); (s [(SSym (s2l "splat")); (s [(SSym (s2l "call")); SNil; (SSym (s2l "c"))])]); (s [(SSym (s2l "call")); SNil; (SSym (s2l "d"))])])])]));
  (1700, [97; 32; 61; 32; 52; 50; 10; 112; 32; 97]%N, Some (s [(SSym (s2l "block")); (s [(SSym (s2l "lasgn")); (SSym (s2l "a")); (s [(SSym (s2l "lit")); (SInt (42))])]); (sl 2 [(SSym (s2l "call")); SNil; (SSym (s2l "p")); (sl 2 [(SSym (s2l "lvar")); (SSym (s2l "a"))])])]));
  (1713, [97; 10; 98; 32; 35; 32; 99; 111; 109; 109; 101; 110; 116; 10; 99]%N, Some (s [(SSym (s2l "block")); (s [(SSym (s2l "call")); SNil; (SSym (s2l "a"))]); (sl 2 [(SSym (s2l "call")); SNil; (SSym (s2l "b"))]); (sl 3 [(SSym (s2l "call")); SNil; (SSym (s2l "c"))])]));
  (1723, [10; 10; 10; 97; 10; 98; 32; 35; 32; 99; 111; 109; 109; 101; 110; 116; 10; 35; 32; 97; 110; 111; 116; 104; 101; 114; 32; 99; 111; 109; 109; 101; 110; 116; 10; 99]%N, Some (sl 4 [(SSym (s2l "block")); (sl 4 [(SSym (s2l "call")); SNil; (SSym (s2l "a"))]); (sl 5 [(SSym (s2l "call")); SNil; (SSym (s2l "b"))]); (sl 7 [(SSym (s2l "call")); SNil; (SSym (s2l "c"))])]));
  (1733, [97; 10; 98; 32; 35; 32; 99; 111; 109; 109; 101; 110; 116; 10; 35; 32; 97; 110; 111; 116; 104; 101; 114; 32; 99; 111; 109; 109; 101; 110; 116; 10; 99]%N, Some (s [(SSym (s2l "block")); (s [(SSym (s2l "call")); SNil; (SSym (s2l "a"))]); (sl 2 [(SSym (s2l "call")); SNil; (SSym (s2l "b"))]); (sl 4 [(SSym (s2l "call")); SNil; (SSym (s2l "c"))])]));
  (1743, [97; 32; 64; 98; 10]%N, Some (s [(SSym (s2l "call")); SNil; (SSym (s2l "a")); (s [(SSym (s2l "ivar")); (SSym (s2l "@b"))])]));
  (1750, [97; 40; 64; 98; 10; 41]%N, Some (s [(SSym (s2l "call")); SNil; (SSym (s2l "a")); (s [(SSym (s2l "ivar")); (SSym (s2l "@b"))])]));
  (1757, [102; 32; 100; 111; 32; 124; 120; 44; 32; 121; 124; 10; 32; 32; 120; 32; 43; 32; 121; 10; 101; 110; 100]%N, Some (s [(SSym (s2l "iter")); (s [(SSym (s2l "call")); SNil; (SSym (s2l "f"))]); (s [(SSym (s2l "args")); (SSym (s2l "x")); (SSym (s2l "y"))]); (sl 2 [(SSym (s2l "call")); (sl 2 [(SSym (s2l "lvar")); (SSym (s2l "x"))]); (SSym (s2l "+")); (sl 2 [(SSym (s2l "lvar")); (SSym (s2l "y"))])])]));
  (1774, [100; 101; 102; 32; 102; 32; 97; 10; 101; 110; 100]%N, Some (s [(SSym (s2l "defn")); (SSym (s2l "f")); (s [(SSym (s2l "args")); (SSym (s2l "a"))]); (s [(SSym (s2l "nil"))])]));
  (1781, [100; 101; 102; 32; 120; 40; 121; 41; 10; 32; 32; 112; 40; 121; 41; 10; 32; 32; 121; 32; 42; 61; 32; 50; 10; 32; 32; 114; 101; 116; 117; 114; 110; 32; 121; 59; 10; 101; 110; 100]%N, Some (s [(SSym (s2l "defn")); (SSym (s2l "x")); (s [(SSym (s2l "args")); (SSym (s2l "y"))]); (sl 2 [(SSym (s2l "call")); SNil; (SSym (s2l "p")); (sl 2 [(SSym (s2l "lvar")); (SSym (s2l "y"))])]); (sl 3 [(SSym (s2l "lasgn")); (SSym (s2l "y")); (sl 3 [(SSym (s2l "call")); (sl 3 [(SSym (s2l "lvar")); (SSym (s2l "y"))]); (SSym (s2l "*")); (sl 3 [(SSym (s2l "lit")); (SInt (2))])])]); (sl 4 [(SSym (s2l "return")); (sl 4 [(SSym (s2l "lvar")); (SSym (s2l "y"))])])]));
  (1796, [100; 101; 102; 32; 102; 10; 101; 110; 100]%N, Some (s [(SSym (s2l "defn")); (SSym (s2l "f")); (s [(SSym (s2l "args"))]); (s [(SSym (s2l "nil"))])]));
  (1796, [100; 101; 102; 32; 102; 10; 10; 101; 110; 100]%N, Some (s [(SSym (s2l "defn")); (SSym (s2l "f")); (s [(SSym (s2l "args"))]); (s [(SSym (s2l "nil"))])]));
  (1808, [48; 46; 46; 10; 52; 10; 97; 46; 46; 10; 98; 10; 99]%N, Some (s [(SSym (s2l "block")); (s [(SSym (s2l "lit")); (SRange (0) (4) false)]); (sl 3 [(SSym (s2l "dot2")); (sl 3 [(SSym (s2l "call")); SNil; (SSym (s2l "a"))]); (sl 4 [(SSym (s2l "call")); SNil; (SSym (s2l "b"))])]); (sl 5 [(SSym (s2l "call")); SNil; (SSym (s2l "c"))])]));
  (1820, [48; 46; 46; 46; 10; 52; 10; 97; 46; 46; 46; 10; 98; 10; 99]%N, Some (s [(SSym (s2l "block")); (s [(SSym (s2l "lit")); (SRange (0) (4) true)]); (sl 3 [(SSym (s2l "dot3")); (sl 3 [(SSym (s2l "call")); SNil; (SSym (s2l "a"))]); (sl 4 [(SSym (s2l "call")); SNil; (SSym (s2l "b"))])]); (sl 5 [(SSym (s2l "call")); SNil; (SSym (s2l "c"))])]));
  (1832, [34; 97; 92; 110; 35; 123; 10; 125; 34; 10; 116; 114; 117; 101]%N, Some (s [(SSym (s2l "block")); (s [(SSym (s2l "dstr")); (SStr [97; 10]%N); (s [(SSym (s2l "evstr"))])]); (s [(SSym (s2l "true"))])]));
  (1842, [34; 97; 10; 35; 123; 10; 125; 34; 10; 116; 114; 117; 101]%N, Some (s [(SSym (s2l "block")); (s [(SSym (s2l "dstr")); (SStr [97; 10]%N); (s [(SSym (s2l "evstr"))])]); (s [(SSym (s2l "true"))])]));
  (1851, [34; 97; 34; 92; 10; 34; 35; 123; 98; 125; 34]%N, Some (s [(SSym (s2l "dstr")); (SStr (s2l "a")); (sl 2 [(SSym (s2l "evstr")); (sl 2 [(SSym (s2l "call")); SNil; (SSym (s2l "b"))])])]));
  (1860, [123; 10; 58; 115; 49; 32; 61; 62; 32; 49; 44; 10; 125]%N, Some (s [(SSym (s2l "hash")); (s [(SSym (s2l "lit")); (SSym (s2l "s1"))]); (s [(SSym (s2l "lit")); (SInt (1))])]));
  (1869, [32; 32; 32; 32; 32; 32; 115; 116; 114; 105; 110; 103; 32; 61; 32; 60; 60; 45; 72; 69; 82; 69; 68; 79; 67; 46; 115; 116; 114; 105; 112; 10; 32; 32; 32; 32; 32; 32; 32; 32; 118; 101; 114; 121; 32; 108; 111; 110; 103; 32; 115; 116; 114; 105; 110; 103; 10; 32; 32; 32; 32; 32; 32; 72; 69; 82; 69; 68; 79; 67; 10; 32; 32; 32; 32; 32; 32; 112; 117; 116; 115; 32; 115; 116; 114; 105; 110; 103; 10]%N, Some (s [(SSym (s2l "block")); (s [(SSym (s2l "lasgn")); (SSym (s2l "string")); (s [(SSym (s2l "call")); (s [(SSym (s2l "str")); (SStr [32; 32; 32; 32; 32; 32; 32; 32; 118; 101; 114; 121; 32; 108; 111; 110; 103; 32; 115; 116; 114; 105; 110; 103; 10]%N)]); (SSym (s2l "strip"))])]); (sl 4 [(SSym (s2l "call")); SNil; (SSym (s2l "puts")); (sl 4 [(SSym (s2l "lvar")); (SSym (s2l "string"))])])]));
  (1890, [60; 60; 45; 65; 10; 97; 10; 35; 123; 98; 125; 10; 65]%N, Some (s [(SSym (s2l "dstr")); (SStr [97; 10]%N); (sl 3 [(SSym (s2l "evstr")); (sl 3 [(SSym (s2l "call")); SNil; (SSym (s2l "b"))])]); (sl 3 [(SSym (s2l "str")); (SStr [10]%N)])]));
  (1900, [32; 32; 32; 32; 32; 32; 115; 116; 114; 105; 110; 103; 32; 61; 32; 60; 60; 45; 34; 94; 68; 34; 10; 32; 32; 32; 32; 32; 32; 32; 32; 118; 101; 114; 121; 32; 108; 111; 110; 103; 32; 115; 116; 114; 105; 110; 103; 10; 32; 32; 32; 32; 32; 32; 94; 68; 10; 32; 32; 32; 32; 32; 32; 112; 117; 116; 115; 32; 115; 116; 114; 105; 110; 103; 10]%N, Some (s [(SSym (s2l "block")); (s [(SSym (s2l "lasgn")); (SSym (s2l "string")); (s [(SSym (s2l "str")); (SStr [32; 32; 32; 32; 32; 32; 32; 32; 118; 101; 114; 121; 32; 108; 111; 110; 103; 32; 115; 116; 114; 105; 110; 103; 10]%N)])]); (sl 4 [(SSym (s2l "call")); SNil; (SSym (s2l "puts")); (sl 4 [(SSym (s2l "lvar")); (SSym (s2l "string"))])])]));
  (1916, [102; 32; 97; 32; 100; 111; 32; 124; 120; 44; 32; 121; 124; 10; 32; 32; 120; 32; 43; 32; 121; 10; 101; 110; 100]%N, Some (s [(SSym (s2l "iter")); (s [(SSym (s2l "call")); SNil; (SSym (s2l "f")); (s [(SSym (s2l "call")); SNil; (SSym (s2l "a"))])]); (s [(SSym (s2l "args")); (SSym (s2l "x")); (SSym (s2l "y"))]); (sl 2 [(SSym (s2l "call")); (sl 2 [(SSym (s2l "lvar")); (SSym (s2l "x"))]); (SSym (s2l "+")); (sl 2 [(SSym (s2l "lvar")); (SSym (s2l "y"))])])]));
  (1928, [102; 40; 97; 41; 32; 100; 111; 32; 124; 120; 44; 32; 121; 124; 10; 32; 32; 120; 32; 43; 32; 121; 10; 101; 110; 100]%N, Some (s [(SSym (s2l "iter")); (s [(SSym (s2l "call")); SNil; (SSym (s2l "f")); (s [(SSym (s2l "call")); SNil; (SSym (s2l "a"))])]); (s [(SSym (s2l "args")); (SSym (s2l "x")); (SSym (s2l "y"))]); (sl 2 [(SSym (s2l "call")); (sl 2 [(SSym (s2l "lvar")); (SSym (s2l "x"))]); (SSym (s2l "+")); (sl 2 [(SSym (s2l "lvar")); (SSym (s2l "y"))])])]));
  (1945, [34; 97; 10; 98; 34; 10; 49]%N, Some (s [(SSym (s2l "block")); (s [(SSym (s2l "str")); (SStr [97; 10; 98]%N)]); (sl 3 [(SSym (s2l "lit")); (SInt (1))])]));
  (1954, [34; 97; 92; 110; 98; 34; 10; 49]%N, Some (s [(SSym (s2l "block")); (s [(SSym (s2l "str")); (SStr [97; 10; 98]%N)]); (sl 2 [(SSym (s2l "lit")); (SInt (1))])]));
  (1963, [116; 114; 117; 101; 10; 10]%N, Some (s [(SSym (s2l "true"))]));
  (1970, [32; 32; 32; 32; 32; 32; 102; 111; 111; 32; 43; 61; 10; 32; 32; 32; 32; 32; 32; 32; 32; 98; 97; 114; 10; 32; 32; 32; 32; 32; 32; 98; 97; 122; 10]%N, Some (s [(SSym (s2l "block")); (s [(SSym (s2l "lasgn")); (SSym (s2l "foo")); (s [(SSym (s2l "call")); (s [(SSym (s2l "lvar")); (SSym (s2l "foo"))]); (SSym (s2l "+")); (sl 2 [(SSym (s2l "call")); SNil; (SSym (s2l "bar"))])])]); (sl 3 [(SSym (s2l "call")); SNil; (SSym (s2l "baz"))])]));
  (1988, [69; 78; 68; 32; 123; 10; 102; 111; 111; 10; 125]%N, Some (s [(SSym (s2l "iter")); (s [(SSym (s2l "postexe"))]); (SInt (0)); (sl 2 [(SSym (s2l "call")); SNil; (SSym (s2l "foo"))])]));
  (1997, [66; 69; 71; 73; 78; 32; 123; 10; 102; 111; 111; 10; 125]%N, Some (s [(SSym (s2l "iter")); (s [(SSym (s2l "preexe"))]); (SInt (0)); (sl 2 [(SSym (s2l "call")); SNil; (SSym (s2l "foo"))])]));
  (2006, [98; 101; 103; 105; 110; 10; 32; 32; 97; 10; 114; 101; 115; 99; 117; 101; 10; 32; 32; 98; 10; 114; 101; 115; 99; 117; 101; 10; 32; 32; 99; 10; 101; 110; 100; 10]%N, Some (sl 1 [(SSym (s2l "rescue")); (sl 2 [(SSym (s2l "call")); SNil; (SSym (s2l "a"))]); (sl 3 [(SSym (s2l "resbody")); (sl 3 [(SSym (s2l "array"))]); (sl 4 [(SSym (s2l "call")); SNil; (SSym (s2l "b"))])]); (sl 5 [(SSym (s2l "resbody")); (sl 5 [(SSym (s2l "array"))]); (sl 6 [(SSym (s2l "call")); SNil; (SSym (s2l "c"))])])]));
  (2018, [32; 32; 32; 32; 32; 32; 100; 101; 102; 32; 98; 108; 97; 104; 10; 32; 32; 32; 32; 32; 32; 32; 32; 105; 102; 32; 116; 114; 117; 101; 32; 116; 104; 101; 110; 10; 32; 32; 32; 32; 32; 32; 32; 32; 32; 32; 114; 101; 116; 117; 114; 110; 32; 52; 50; 10; 32; 32; 32; 32; 32; 32; 32; 32; 101; 110; 100; 10; 32; 32; 32; 32; 32; 32; 101; 110; 100; 10]%N, Some (s [(SSym (s2l "defn")); (SSym (s2l "blah")); (s [(SSym (s2l "args"))]); (sl 2 [(SSym (s2l "if")); (sl 2 [(SSym (s2l "true"))]); (sl 3 [(SSym (s2l "return")); (sl 3 [(SSym (s2l "lit")); (SInt (42))])]); SNil])]));
  (2038, (s2l "a(""\n"", true)"), Some (s [(SSym (s2l "call")); SNil; (SSym (s2l "a")); (s [(SSym (s2l "str")); (SStr [10]%N)]); (s [(SSym (s2l "true"))])]));
  (2047, [97; 44; 10; 98; 32; 61; 32; 99; 10; 100]%N, Some (s [(SSym (s2l "block")); (s [(SSym (s2l "masgn")); (s [(SSym (s2l "array")); (s [(SSym (s2l "lasgn")); (SSym (s2l "a"))]); (sl 2 [(SSym (s2l "lasgn")); (SSym (s2l "b"))])]); (sl 2 [(SSym (s2l "to_ary")); (sl 2 [(SSym (s2l "call")); SNil; (SSym (s2l "c"))])])]); (sl 3 [(SSym (s2l "call")); SNil; (SSym (s2l "d"))])]));
  (2058, [97; 32; 10; 98]%N, Some (s [(SSym (s2l "block")); (s [(SSym (s2l "call")); SNil; (SSym (s2l "a"))]); (sl 2 [(SSym (s2l "call")); SNil; (SSym (s2l "b"))])]));
  (2110, (s2l "a.b do | | end"), Some (s [(SSym (s2l "iter")); (s [(SSym (s2l "call")); (s [(SSym (s2l "call")); SNil; (SSym (s2l "a"))]); (SSym (s2l "b"))]); (s [(SSym (s2l "args"))])]));
  (2117, (s2l "%W( )"), Some (s [(SSym (s2l "array"))]));
  (2124, (s2l "%w()"), Some (s [(SSym (s2l "array"))]));
  (2160, (s2l """a #{b}"""), Some (s [(SSym (s2l "dstr")); (SStr (s2l "a ")); (s [(SSym (s2l "evstr")); (s [(SSym (s2l "call")); SNil; (SSym (s2l "b"))])])]));
  (2175, [60; 60; 34; 34; 10; 35; 123; 120; 125; 10; 98; 108; 97; 104; 50; 10; 10]%N, Some (s [(SSym (s2l "dstr")); (SStr (s2l "")); (sl 2 [(SSym (s2l "evstr")); (sl 2 [(SSym (s2l "call")); SNil; (SSym (s2l "x"))])]); (sl 2 [(SSym (s2l "str")); (SStr [10; 98; 108; 97; 104; 50; 10]%N)])]));
  (2201, [34; 92; 110; 92; 110; 92; 110; 92; 110; 35; 34; 10; 49]%N, Some (s [(SSym (s2l "block")); (s [(SSym (s2l "str")); (SStr [10; 10; 10; 10; 35]%N)]); (sl 2 [(SSym (s2l "lit")); (SInt (1))])]));
  (2209, (s2l "%{ { #{ ""#{1}"" } } }"), Some (s [(SSym (s2l "dstr")); (SStr (s2l " { ")); (s [(SSym (s2l "evstr")); (s [(SSym (s2l "lit")); (SInt (1))])]); (s [(SSym (s2l "str")); (SStr (s2l " } "))])]));
  (2217, (s2l "%Q[before [#{nest}] after]"), Some (s [(SSym (s2l "dstr")); (SStr (s2l "before [")); (s [(SSym (s2l "evstr")); (s [(SSym (s2l "call")); SNil; (SSym (s2l "nest"))])]); (s [(SSym (s2l "str")); (SStr (s2l "] after"))])]));
  (2224, (s2l "%q{a b c}"), Some (s [(SSym (s2l "str")); (SStr (s2l "a b c"))]));
  (2285, (s2l """a #{'b'}"""), Some (s [(SSym (s2l "str")); (SStr (s2l "a b"))]));
  (2292, (s2l """a #{'b'} c"""), Some (s [(SSym (s2l "str")); (SStr (s2l "a b c"))]));
  (2299, (s2l "super 42"), Some (s [(SSym (s2l "super")); (s [(SSym (s2l "lit")); (SInt (42))])]));
  (2306, (s2l "-0.0"), Some (s [(SSym (s2l "lit")); (SFloat false [])]));
  (2313, (s2l "-a"), Some (s [(SSym (s2l "call")); (s [(SSym (s2l "call")); SNil; (SSym (s2l "a"))]); (SSym (s2l "-@"))]));
  (2320, (s2l "+a"), Some (s [(SSym (s2l "call")); (s [(SSym (s2l "call")); SNil; (SSym (s2l "a"))]); (SSym (s2l "+@"))]));
  (2327, (s2l "~a"), Some (s [(SSym (s2l "call")); (s [(SSym (s2l "call")); SNil; (SSym (s2l "a"))]); (SSym (s2l "~"))]))].
Example ruby_parser_0_passes : forallb passes ruby_parser_0 = true.
Proof. vm_compute. reflexivity. Qed.

(** /repo/test/test_ruby_parser.rb, lines 2334-3554. *)
Definition ruby_parser_1 : list (N * str * option sexp) := [
  (2334, (s2l "case a; when *b then; end"), Some (s [(SSym (s2l "case")); (s [(SSym (s2l "call")); SNil; (SSym (s2l "a"))]); (s [(SSym (s2l "when")); (s [(SSym (s2l "array")); (s [(SSym (s2l "splat")); (s [(SSym (s2l "call")); SNil; (SSym (s2l "b"))])])]); SNil]); SNil]));
  (2343, (s2l "%W(#{1}b)"), Some (s [(SSym (s2l "array")); (s [(SSym (s2l "dstr")); (SStr (s2l "")); (s [(SSym (s2l "evstr")); (s [(SSym (s2l "lit")); (SInt (1))])]); (s [(SSym (s2l "str")); (SStr (s2l "b"))])])]));
  (2350, (s2l "a.b (1) {c}"), Some (s [(SSym (s2l "iter")); (s [(SSym (s2l "call")); (s [(SSym (s2l "call")); SNil; (SSym (s2l "a"))]); (SSym (s2l "b")); (s [(SSym (s2l "lit")); (SInt (1))])]); (SInt (0)); (s [(SSym (s2l "call")); SNil; (SSym (s2l "c"))])]));
  (2360, (s2l "a::b (1) {c}"), Some (s [(SSym (s2l "iter")); (s [(SSym (s2l "call")); (s [(SSym (s2l "call")); SNil; (SSym (s2l "a"))]); (SSym (s2l "b")); (s [(SSym (s2l "lit")); (SInt (1))])]); (SInt (0)); (s [(SSym (s2l "call")); SNil; (SSym (s2l "c"))])]));
  (2370, (s2l "yield 42"), Some (s [(SSym (s2l "yield")); (s [(SSym (s2l "lit")); (SInt (42))])]));
  (2377, (s2l "yield()"), Some (s [(SSym (s2l "yield"))]));
  (2388, (s2l "[1, 2 => 3]"), Some (s [(SSym (s2l "array")); (s [(SSym (s2l "lit")); (SInt (1))]); (s [(SSym (s2l "bare_hash")); (s [(SSym (s2l "lit")); (SInt (2))]); (s [(SSym (s2l "lit")); (SInt (3))])])]));
  (2395, (s2l "a(b:1)"), Some (s [(SSym (s2l "call")); SNil; (SSym (s2l "a")); (s [(SSym (s2l "bare_hash")); (s [(SSym (s2l "lit")); (SSym (s2l "b"))]); (s [(SSym (s2l "lit")); (SInt (1))])])]));
  (2402, (s2l "{1, 2, 3, 4}"), None);
  (2408, (s2l "1 != 2"), Some (s [(SSym (s2l "call")); (s [(SSym (s2l "lit")); (SInt (1))]); (SSym (s2l "!=")); (s [(SSym (s2l "lit")); (SInt (2))])]));
  (2415, (s2l "a { |b, c=1, d, &e| }"), Some (s [(SSym (s2l "iter")); (s [(SSym (s2l "call")); SNil; (SSym (s2l "a"))]); (s [(SSym (s2l "args")); (SSym (s2l "b")); (s [(SSym (s2l "lasgn")); (SSym (s2l "c")); (s [(SSym (s2l "lit")); (SInt (1))])]); (SSym (s2l "d")); (SSym (s2l "&e"))])]));
  (2422, (s2l "a { |b, c = 1, *d| }"), Some (s [(SSym (s2l "iter")); (s [(SSym (s2l "call")); SNil; (SSym (s2l "a"))]); (s [(SSym (s2l "args")); (SSym (s2l "b")); (s [(SSym (s2l "lasgn")); (SSym (s2l "c")); (s [(SSym (s2l "lit")); (SInt (1))])]); (SSym (s2l "*d"))])]));
  (2429, (s2l "a { |b, c=1, *d, e, &f| }"), Some (s [(SSym (s2l "iter")); (s [(SSym (s2l "call")); SNil; (SSym (s2l "a"))]); (s [(SSym (s2l "args")); (SSym (s2l "b")); (s [(SSym (s2l "lasgn")); (SSym (s2l "c")); (s [(SSym (s2l "lit")); (SInt (1))])]); (SSym (s2l "*d")); (SSym (s2l "e")); (SSym (s2l "&f"))])]));
  (2438, (s2l "a { |b = 1| }"), Some (s [(SSym (s2l "iter")); (s [(SSym (s2l "call")); SNil; (SSym (s2l "a"))]); (s [(SSym (s2l "args")); (s [(SSym (s2l "lasgn")); (SSym (s2l "b")); (s [(SSym (s2l "lit")); (SInt (1))])])])]));
  (2447, (s2l "a { |b; c| }"), Some (s [(SSym (s2l "iter")); (s [(SSym (s2l "call")); SNil; (SSym (s2l "a"))]); (s [(SSym (s2l "args")); (SSym (s2l "b")); (s [(SSym (s2l "shadow")); (SSym (s2l "c"))])])]));
  (2454, (s2l "a {|b; c, d| }"), Some (s [(SSym (s2l "iter")); (s [(SSym (s2l "call")); SNil; (SSym (s2l "a"))]); (s [(SSym (s2l "args")); (SSym (s2l "b")); (s [(SSym (s2l "shadow")); (SSym (s2l "c")); (SSym (s2l "d"))])])]));
  (2461, (s2l "a { |b, *c, d| }"), Some (s [(SSym (s2l "iter")); (s [(SSym (s2l "call")); SNil; (SSym (s2l "a"))]); (s [(SSym (s2l "args")); (SSym (s2l "b")); (SSym (s2l "*c")); (SSym (s2l "d"))])]));
  (2468, (s2l "f { |a, b = 42| [a, b] }"), Some (s [(SSym (s2l "iter")); (s [(SSym (s2l "call")); SNil; (SSym (s2l "f"))]); (s [(SSym (s2l "args")); (SSym (s2l "a")); (s [(SSym (s2l "lasgn")); (SSym (s2l "b")); (s [(SSym (s2l "lit")); (SInt (42))])])]); (s [(SSym (s2l "array")); (s [(SSym (s2l "lvar")); (SSym (s2l "a"))]); (s [(SSym (s2l "lvar")); (SSym (s2l "b"))])])]));
  (2478, (s2l "a { | b=1, c=2 | }"), Some (s [(SSym (s2l "iter")); (s [(SSym (s2l "call")); SNil; (SSym (s2l "a"))]); (s [(SSym (s2l "args")); (s [(SSym (s2l "lasgn")); (SSym (s2l "b")); (s [(SSym (s2l "lit")); (SInt (1))])]); (s [(SSym (s2l "lasgn")); (SSym (s2l "c")); (s [(SSym (s2l "lit")); (SInt (2))])])])]));
  (2487, (s2l "f { |a, b = 42, c = 24| [a, b, c] }"), Some (s [(SSym (s2l "iter")); (s [(SSym (s2l "call")); SNil; (SSym (s2l "f"))]); (s [(SSym (s2l "args")); (SSym (s2l "a")); (s [(SSym (s2l "lasgn")); (SSym (s2l "b")); (s [(SSym (s2l "lit")); (SInt (42))])]); (s [(SSym (s2l "lasgn")); (SSym (s2l "c")); (s [(SSym (s2l "lit")); (SInt (24))])])]); (s [(SSym (s2l "array")); (s [(SSym (s2l "lvar")); (SSym (s2l "a"))]); (s [(SSym (s2l "lvar")); (SSym (s2l "b"))]); (s [(SSym (s2l "lvar")); (SSym (s2l "c"))])])]));
  (2497, (s2l "f { |a, b = 42, c = 24, &d| [a, b, c, d] }"), Some (s [(SSym (s2l "iter")); (s [(SSym (s2l "call")); SNil; (SSym (s2l "f"))]); (s [(SSym (s2l "args")); (SSym (s2l "a")); (s [(SSym (s2l "lasgn")); (SSym (s2l "b")); (s [(SSym (s2l "lit")); (SInt (42))])]); (s [(SSym (s2l "lasgn")); (SSym (s2l "c")); (s [(SSym (s2l "lit")); (SInt (24))])]); (SSym (s2l "&d"))]); (s [(SSym (s2l "array")); (s [(SSym (s2l "lvar")); (SSym (s2l "a"))]); (s [(SSym (s2l "lvar")); (SSym (s2l "b"))]); (s [(SSym (s2l "lvar")); (SSym (s2l "c"))]); (s [(SSym (s2l "lvar")); (SSym (s2l "d"))])])]));
  (2507, (s2l "break foo arg do |bar| end"), Some (s [(SSym (s2l "break")); (s [(SSym (s2l "iter")); (s [(SSym (s2l "call")); SNil; (SSym (s2l "foo")); (s [(SSym (s2l "call")); SNil; (SSym (s2l "arg"))])]); (s [(SSym (s2l "args")); (SSym (s2l "bar"))])])]));
  (2517, (s2l "a.b c do end::d"), Some (s [(SSym (s2l "call")); (s [(SSym (s2l "iter")); (s [(SSym (s2l "call")); (s [(SSym (s2l "call")); SNil; (SSym (s2l "a"))]); (SSym (s2l "b")); (s [(SSym (s2l "call")); SNil; (SSym (s2l "c"))])]); (SInt (0))]); (SSym (s2l "d"))]));
  (2527, (s2l "a.b c do end.d"), Some (s [(SSym (s2l "call")); (s [(SSym (s2l "iter")); (s [(SSym (s2l "call")); (s [(SSym (s2l "call")); SNil; (SSym (s2l "a"))]); (SSym (s2l "b")); (s [(SSym (s2l "call")); SNil; (SSym (s2l "c"))])]); (SInt (0))]); (SSym (s2l "d"))]));
  (2537, (s2l "a :b do end::c :d"), Some (s [(SSym (s2l "call")); (s [(SSym (s2l "iter")); (s [(SSym (s2l "call")); SNil; (SSym (s2l "a")); (s [(SSym (s2l "lit")); (SSym (s2l "b"))])]); (SInt (0))]); (SSym (s2l "c")); (s [(SSym (s2l "lit")); (SSym (s2l "d"))])]));
  (2547, (s2l "a :b do end.c :d"), Some (s [(SSym (s2l "call")); (s [(SSym (s2l "iter")); (s [(SSym (s2l "call")); SNil; (SSym (s2l "a")); (s [(SSym (s2l "lit")); (SSym (s2l "b"))])]); (SInt (0))]); (SSym (s2l "c")); (s [(SSym (s2l "lit")); (SSym (s2l "d"))])]));
  (2557, (s2l "f { |(*, a)| }"), Some (s [(SSym (s2l "iter")); (s [(SSym (s2l "call")); SNil; (SSym (s2l "f"))]); (s [(SSym (s2l "args")); (s [(SSym (s2l "masgn")); (SSym (s2l "*")); (SSym (s2l "a"))])])]));
  (2564, (s2l "a { |(b, *)| }"), Some (s [(SSym (s2l "iter")); (s [(SSym (s2l "call")); SNil; (SSym (s2l "a"))]); (s [(SSym (s2l "args")); (s [(SSym (s2l "masgn")); (SSym (s2l "b")); (SSym (s2l "*"))])])]));
  (2571, (s2l "f { |(a, *b, c)| }"), Some (s [(SSym (s2l "iter")); (s [(SSym (s2l "call")); SNil; (SSym (s2l "f"))]); (s [(SSym (s2l "args")); (s [(SSym (s2l "masgn")); (SSym (s2l "a")); (SSym (s2l "*b")); (SSym (s2l "c"))])])]));
  (2578, (s2l "next foo arg do |bar| end"), Some (s [(SSym (s2l "next")); (s [(SSym (s2l "iter")); (s [(SSym (s2l "call")); SNil; (SSym (s2l "foo")); (s [(SSym (s2l "call")); SNil; (SSym (s2l "arg"))])]); (s [(SSym (s2l "args")); (SSym (s2l "bar"))])])]));
  (2588, (s2l "a { |b=1, c| }"), Some (s [(SSym (s2l "iter")); (s [(SSym (s2l "call")); SNil; (SSym (s2l "a"))]); (s [(SSym (s2l "args")); (s [(SSym (s2l "lasgn")); (SSym (s2l "b")); (s [(SSym (s2l "lit")); (SInt (1))])]); (SSym (s2l "c"))])]));
  (2595, (s2l "a { |b = 1, *c| }"), Some (s [(SSym (s2l "iter")); (s [(SSym (s2l "call")); SNil; (SSym (s2l "a"))]); (s [(SSym (s2l "args")); (s [(SSym (s2l "lasgn")); (SSym (s2l "b")); (s [(SSym (s2l "lit")); (SInt (1))])]); (SSym (s2l "*c"))])]));
  (2602, (s2l "a { |b=1, *c, d, &e| }"), Some (s [(SSym (s2l "iter")); (s [(SSym (s2l "call")); SNil; (SSym (s2l "a"))]); (s [(SSym (s2l "args")); (s [(SSym (s2l "lasgn")); (SSym (s2l "b")); (s [(SSym (s2l "lit")); (SInt (1))])]); (SSym (s2l "*c")); (SSym (s2l "d")); (SSym (s2l "&e"))])]));
  (2611, (s2l "a { |b = :c| }"), Some (s [(SSym (s2l "iter")); (s [(SSym (s2l "call")); SNil; (SSym (s2l "a"))]); (s [(SSym (s2l "args")); (s [(SSym (s2l "lasgn")); (SSym (s2l "b")); (s [(SSym (s2l "lit")); (SSym (s2l "c"))])])])]));
  (2618, (s2l "a { |(b, *c)| }"), Some (s [(SSym (s2l "iter")); (s [(SSym (s2l "call")); SNil; (SSym (s2l "a"))]); (s [(SSym (s2l "args")); (s [(SSym (s2l "masgn")); (SSym (s2l "b")); (SSym (s2l "*c"))])])]));
  (2625, (s2l "a { |b, c = :d| }"), Some (s [(SSym (s2l "iter")); (s [(SSym (s2l "call")); SNil; (SSym (s2l "a"))]); (s [(SSym (s2l "args")); (SSym (s2l "b")); (s [(SSym (s2l "lasgn")); (SSym (s2l "c")); (s [(SSym (s2l "lit")); (SSym (s2l "d"))])])])]));
  (2632, (s2l "return foo arg do |bar| end"), Some (s [(SSym (s2l "return")); (s [(SSym (s2l "iter")); (s [(SSym (s2l "call")); SNil; (SSym (s2l "foo")); (s [(SSym (s2l "call")); SNil; (SSym (s2l "arg"))])]); (s [(SSym (s2l "args")); (SSym (s2l "bar"))])])]));
  (2642, (s2l "a { |;b| }"), Some (s [(SSym (s2l "iter")); (s [(SSym (s2l "call")); SNil; (SSym (s2l "a"))]); (s [(SSym (s2l "args")); (s [(SSym (s2l "shadow")); (SSym (s2l "b"))])])]));
  (2649, (s2l "a { |*b, c| }"), Some (s [(SSym (s2l "iter")); (s [(SSym (s2l "call")); SNil; (SSym (s2l "a"))]); (s [(SSym (s2l "args")); (SSym (s2l "*b")); (SSym (s2l "c"))])]));
  (2656, (s2l "yield foo arg do |bar| end"), Some (s [(SSym (s2l "yield")); (s [(SSym (s2l "iter")); (s [(SSym (s2l "call")); SNil; (SSym (s2l "foo")); (s [(SSym (s2l "call")); SNil; (SSym (s2l "arg"))])]); (s [(SSym (s2l "args")); (SSym (s2l "bar"))])])]));
  (2666, [112; 114; 105; 118; 97; 116; 101; 32; 100; 101; 102; 32; 102; 10; 97; 46; 98; 32; 100; 111; 32; 101; 110; 100; 10; 101; 110; 100]%N, Some (s [(SSym (s2l "call")); SNil; (SSym (s2l "private")); (s [(SSym (s2l "defn")); (SSym (s2l "f")); (s [(SSym (s2l "args"))]); (sl 2 [(SSym (s2l "iter")); (sl 2 [(SSym (s2l "call")); (sl 2 [(SSym (s2l "call")); SNil; (SSym (s2l "a"))]); (SSym (s2l "b"))]); (SInt (0))])])]));
  (2677, (s2l "f { |(a, b)| d }"), Some (s [(SSym (s2l "iter")); (s [(SSym (s2l "call")); SNil; (SSym (s2l "f"))]); (s [(SSym (s2l "args")); (s [(SSym (s2l "masgn")); (SSym (s2l "a")); (SSym (s2l "b"))])]); (s [(SSym (s2l "call")); SNil; (SSym (s2l "d"))])]));
  (2686, (s2l "f { |((k, v), i)| }"), Some (s [(SSym (s2l "iter")); (s [(SSym (s2l "call")); SNil; (SSym (s2l "f"))]); (s [(SSym (s2l "args")); (s [(SSym (s2l "masgn")); (s [(SSym (s2l "masgn")); (SSym (s2l "k")); (SSym (s2l "v"))]); (SSym (s2l "i"))])])]));
  (2695, (s2l "foo(:bar, baz: nil)"), Some (s [(SSym (s2l "call")); SNil; (SSym (s2l "foo")); (s [(SSym (s2l "lit")); (SSym (s2l "bar"))]); (s [(SSym (s2l "bare_hash")); (s [(SSym (s2l "lit")); (SSym (s2l "baz"))]); (s [(SSym (s2l "nil"))])])]));
  (2704, (s2l "foo(:bar, baz: nil,)"), Some (s [(SSym (s2l "call")); SNil; (SSym (s2l "foo")); (s [(SSym (s2l "lit")); (SSym (s2l "bar"))]); (s [(SSym (s2l "bare_hash")); (s [(SSym (s2l "lit")); (SSym (s2l "baz"))]); (s [(SSym (s2l "nil"))])])]));
  (2713, (s2l "f(1, 2=>3)"), Some (s [(SSym (s2l "call")); SNil; (SSym (s2l "f")); (s [(SSym (s2l "lit")); (SInt (1))]); (s [(SSym (s2l "bare_hash")); (s [(SSym (s2l "lit")); (SInt (2))]); (s [(SSym (s2l "lit")); (SInt (3))])])]));
  (2720, (s2l "f(1, 2=>3,)"), Some (s [(SSym (s2l "call")); SNil; (SSym (s2l "f")); (s [(SSym (s2l "lit")); (SInt (1))]); (s [(SSym (s2l "bare_hash")); (s [(SSym (s2l "lit")); (SInt (2))]); (s [(SSym (s2l "lit")); (SInt (3))])])]));
  (2727, (s2l "a([:b, :c => 1])"), Some (s [(SSym (s2l "call")); SNil; (SSym (s2l "a")); (s [(SSym (s2l "array")); (s [(SSym (s2l "lit")); (SSym (s2l "b"))]); (s [(SSym (s2l "bare_hash")); (s [(SSym (s2l "lit")); (SSym (s2l "c"))]); (s [(SSym (s2l "lit")); (SInt (1))])])])]));
  (2734, (s2l "f(2=>3)"), Some (s [(SSym (s2l "call")); SNil; (SSym (s2l "f")); (s [(SSym (s2l "bare_hash")); (s [(SSym (s2l "lit")); (SInt (2))]); (s [(SSym (s2l "lit")); (SInt (3))])])]));
  (2741, (s2l "f(a:3)"), Some (s [(SSym (s2l "call")); SNil; (SSym (s2l "f")); (s [(SSym (s2l "bare_hash")); (s [(SSym (s2l "lit")); (SSym (s2l "a"))]); (s [(SSym (s2l "lit")); (SInt (3))])])]));
  (2748, [97; 40; 98; 58; 32; 105; 102; 32; 58; 99; 10; 49; 10; 101; 108; 115; 101; 10; 50; 10; 101; 110; 100; 41]%N, Some (s [(SSym (s2l "call")); SNil; (SSym (s2l "a")); (s [(SSym (s2l "bare_hash")); (s [(SSym (s2l "lit")); (SSym (s2l "b"))]); (s [(SSym (s2l "if")); (s [(SSym (s2l "lit")); (SSym (s2l "c"))]); (sl 2 [(SSym (s2l "lit")); (SInt (1))]); (sl 4 [(SSym (s2l "lit")); (SInt (2))])])])]));
  (2758, (s2l "f(1=>2,)"), Some (s [(SSym (s2l "call")); SNil; (SSym (s2l "f")); (s [(SSym (s2l "bare_hash")); (s [(SSym (s2l "lit")); (SInt (1))]); (s [(SSym (s2l "lit")); (SInt (2))])])]));
  (2765, (s2l "! a.b 1"), Some (s [(SSym (s2l "call")); (s [(SSym (s2l "call")); (s [(SSym (s2l "call")); SNil; (SSym (s2l "a"))]); (SSym (s2l "b")); (s [(SSym (s2l "lit")); (SInt (1))])]); (SSym (s2l "!"))]));
  (2772, (s2l "1::()"), Some (s [(SSym (s2l "call")); (s [(SSym (s2l "lit")); (SInt (1))]); (SSym (s2l "call"))]));
  (2779, (s2l "1.()"), Some (s [(SSym (s2l "call")); (s [(SSym (s2l "lit")); (SInt (1))]); (SSym (s2l "call"))]));
  (2786, (s2l "not 42"), Some (s [(SSym (s2l "call")); (s [(SSym (s2l "lit")); (SInt (42))]); (SSym (s2l "!"))]));
  (2793, (s2l "a -> do 1 end do 2 end"), Some (s [(SSym (s2l "iter")); (s [(SSym (s2l "call")); SNil; (SSym (s2l "a")); (s [(SSym (s2l "iter")); (s [(SSym (s2l "lambda"))]); (SInt (0)); (s [(SSym (s2l "lit")); (SInt (1))])])]); (SInt (0)); (s [(SSym (s2l "lit")); (SInt (2))])]));
  (2800, (s2l "a -> { 1 } do 2 end"), Some (s [(SSym (s2l "iter")); (s [(SSym (s2l "call")); SNil; (SSym (s2l "a")); (s [(SSym (s2l "iter")); (s [(SSym (s2l "lambda"))]); (SInt (0)); (s [(SSym (s2l "lit")); (SInt (1))])])]); (SInt (0)); (s [(SSym (s2l "lit")); (SInt (2))])]));
  (2807, (s2l "f(1,)"), Some (s [(SSym (s2l "call")); SNil; (SSym (s2l "f")); (s [(SSym (s2l "lit")); (SInt (1))])]));
  (2814, (s2l "!1"), Some (s [(SSym (s2l "call")); (s [(SSym (s2l "lit")); (SInt (1))]); (SSym (s2l "!"))]));
  (2821, [32; 32; 32; 32; 32; 32; 99; 97; 115; 101; 32; 120; 10; 32; 32; 32; 32; 32; 32; 119; 104; 101; 110; 32; 70; 105; 120; 110; 117; 109; 32; 58; 32; 35; 32; 110; 101; 101; 100; 32; 116; 104; 101; 32; 115; 112; 97; 99; 101; 32; 116; 111; 32; 110; 111; 116; 32; 104; 105; 116; 32; 110; 101; 119; 32; 104; 97; 115; 104; 32; 97; 114; 103; 32; 115; 121; 110; 116; 97; 120; 10; 32; 32; 32; 32; 32; 32; 32; 32; 52; 50; 10; 32; 32; 32; 32; 32; 32; 101; 110; 100; 10]%N, None);
  (2832, (s2l "def call(interp, *, args) end"), Some (s [(SSym (s2l "defn")); (SSym (s2l "call")); (s [(SSym (s2l "args")); (SSym (s2l "interp")); (SSym (s2l "*")); (SSym (s2l "args"))]); (s [(SSym (s2l "nil"))])]));
  (2839, [100; 101; 102; 32; 109; 32; 97; 114; 103; 32; 61; 32; 102; 97; 108; 115; 101; 10; 101; 110; 100]%N, Some (s [(SSym (s2l "defn")); (SSym (s2l "m")); (s [(SSym (s2l "args")); (s [(SSym (s2l "lasgn")); (SSym (s2l "arg")); (s [(SSym (s2l "false"))])])]); (s [(SSym (s2l "nil"))])]));
  (2848, (s2l "def f(a=nil, b) end"), Some (s [(SSym (s2l "defn")); (SSym (s2l "f")); (s [(SSym (s2l "args")); (s [(SSym (s2l "lasgn")); (SSym (s2l "a")); (s [(SSym (s2l "nil"))])]); (SSym (s2l "b"))]); (s [(SSym (s2l "nil"))])]));
  (2855, (s2l "def f (a = 1, *b, c) end"), Some (s [(SSym (s2l "defn")); (SSym (s2l "f")); (s [(SSym (s2l "args")); (s [(SSym (s2l "lasgn")); (SSym (s2l "a")); (s [(SSym (s2l "lit")); (SInt (1))])]); (SSym (s2l "*b")); (SSym (s2l "c"))]); (s [(SSym (s2l "nil"))])]));
  (2862, (s2l "def f(a, b = :c, d) end"), Some (s [(SSym (s2l "defn")); (SSym (s2l "f")); (s [(SSym (s2l "args")); (SSym (s2l "a")); (s [(SSym (s2l "lasgn")); (SSym (s2l "b")); (s [(SSym (s2l "lit")); (SSym (s2l "c"))])]); (SSym (s2l "d"))]); (s [(SSym (s2l "nil"))])]));
  (2869, (s2l "def f(*, a) end"), Some (s [(SSym (s2l "defn")); (SSym (s2l "f")); (s [(SSym (s2l "args")); (SSym (s2l "*")); (SSym (s2l "a"))]); (s [(SSym (s2l "nil"))])]));
  (2876, (s2l "while false : 42 end"), None);
  (2882, (s2l "->() do end"), Some (s [(SSym (s2l "iter")); (s [(SSym (s2l "lambda"))]); (s [(SSym (s2l "args"))])]));
  (2889, (s2l "! a b"), Some (s [(SSym (s2l "call")); (s [(SSym (s2l "call")); SNil; (SSym (s2l "a")); (s [(SSym (s2l "call")); SNil; (SSym (s2l "b"))])]); (SSym (s2l "!"))]));
  (2896, [49; 32; 63; 32; 98; 40; 39; 39; 41; 32; 58; 32; 50; 10; 97; 32; 100; 58; 32; 51]%N, Some (s [(SSym (s2l "block")); (s [(SSym (s2l "if")); (s [(SSym (s2l "lit")); (SInt (1))]); (s [(SSym (s2l "call")); SNil; (SSym (s2l "b")); (s [(SSym (s2l "str")); (SStr (s2l ""))])]); (s [(SSym (s2l "lit")); (SInt (2))])]); (sl 2 [(SSym (s2l "call")); SNil; (SSym (s2l "a")); (sl 2 [(SSym (s2l "bare_hash")); (sl 2 [(SSym (s2l "lit")); (SSym (s2l "d"))]); (sl 2 [(SSym (s2l "lit")); (SInt (3))])])])]));
  (2905, (s2l "a[] = b"), Some (s [(SSym (s2l "attrasgn")); (s [(SSym (s2l "call")); SNil; (SSym (s2l "a"))]); (SSym (s2l "[]=")); (s [(SSym (s2l "call")); SNil; (SSym (s2l "b"))])]));
  (2912, (s2l "f { |a, b = 42, *c| }"), Some (s [(SSym (s2l "iter")); (s [(SSym (s2l "call")); SNil; (SSym (s2l "f"))]); (s [(SSym (s2l "args")); (SSym (s2l "a")); (s [(SSym (s2l "lasgn")); (SSym (s2l "b")); (s [(SSym (s2l "lit")); (SInt (42))])]); (SSym (s2l "*c"))])]));
  (2920, (s2l "f { |a, b = 42, *c, &d| }"), Some (s [(SSym (s2l "iter")); (s [(SSym (s2l "call")); SNil; (SSym (s2l "f"))]); (s [(SSym (s2l "args")); (SSym (s2l "a")); (s [(SSym (s2l "lasgn")); (SSym (s2l "b")); (s [(SSym (s2l "lit")); (SInt (42))])]); (SSym (s2l "*c")); (SSym (s2l "&d"))])]));
  (2928, (s2l "f { |a, b = 42, *c, d| }"), Some (s [(SSym (s2l "iter")); (s [(SSym (s2l "call")); SNil; (SSym (s2l "f"))]); (s [(SSym (s2l "args")); (SSym (s2l "a")); (s [(SSym (s2l "lasgn")); (SSym (s2l "b")); (s [(SSym (s2l "lit")); (SInt (42))])]); (SSym (s2l "*c")); (SSym (s2l "d"))])]));
  (2936, (s2l "f { |a, b = 42, *c, d, &e| }"), Some (s [(SSym (s2l "iter")); (s [(SSym (s2l "call")); SNil; (SSym (s2l "f"))]); (s [(SSym (s2l "args")); (SSym (s2l "a")); (s [(SSym (s2l "lasgn")); (SSym (s2l "b")); (s [(SSym (s2l "lit")); (SInt (42))])]); (SSym (s2l "*c")); (SSym (s2l "d")); (SSym (s2l "&e"))])]));
  (2944, (s2l "f { |(a, b)| }"), Some (s [(SSym (s2l "iter")); (s [(SSym (s2l "call")); SNil; (SSym (s2l "f"))]); (s [(SSym (s2l "args")); (s [(SSym (s2l "masgn")); (SSym (s2l "a")); (SSym (s2l "b"))])])]));
  (2951, (s2l "f { |a, *b, c| }"), Some (s [(SSym (s2l "iter")); (s [(SSym (s2l "call")); SNil; (SSym (s2l "f"))]); (s [(SSym (s2l "args")); (SSym (s2l "a")); (SSym (s2l "*b")); (SSym (s2l "c"))])]));
  (2958, (s2l "f { |a, &b| }"), Some (s [(SSym (s2l "iter")); (s [(SSym (s2l "call")); SNil; (SSym (s2l "f"))]); (s [(SSym (s2l "args")); (SSym (s2l "a")); (SSym (s2l "&b"))])]));
  (2965, (s2l "f { |a, b=42, c| }"), Some (s [(SSym (s2l "iter")); (s [(SSym (s2l "call")); SNil; (SSym (s2l "f"))]); (s [(SSym (s2l "args")); (SSym (s2l "a")); (s [(SSym (s2l "lasgn")); (SSym (s2l "b")); (s [(SSym (s2l "lit")); (SInt (42))])]); (SSym (s2l "c"))])]));
  (2972, (s2l "f { |a = 42, *b| }"), Some (s [(SSym (s2l "iter")); (s [(SSym (s2l "call")); SNil; (SSym (s2l "f"))]); (s [(SSym (s2l "args")); (s [(SSym (s2l "lasgn")); (SSym (s2l "a")); (s [(SSym (s2l "lit")); (SInt (42))])]); (SSym (s2l "*b"))])]));
  (2980, (s2l "f { |a = 42, *b, &c| }"), Some (s [(SSym (s2l "iter")); (s [(SSym (s2l "call")); SNil; (SSym (s2l "f"))]); (s [(SSym (s2l "args")); (s [(SSym (s2l "lasgn")); (SSym (s2l "a")); (s [(SSym (s2l "lit")); (SInt (42))])]); (SSym (s2l "*b")); (SSym (s2l "&c"))])]));
  (2988, (s2l "f { |a = 42, *b, c| }"), Some (s [(SSym (s2l "iter")); (s [(SSym (s2l "call")); SNil; (SSym (s2l "f"))]); (s [(SSym (s2l "args")); (s [(SSym (s2l "lasgn")); (SSym (s2l "a")); (s [(SSym (s2l "lit")); (SInt (42))])]); (SSym (s2l "*b")); (SSym (s2l "c"))])]));
  (2996, (s2l "f { |a = 42, *b, c, &d| }"), Some (s [(SSym (s2l "iter")); (s [(SSym (s2l "call")); SNil; (SSym (s2l "f"))]); (s [(SSym (s2l "args")); (s [(SSym (s2l "lasgn")); (SSym (s2l "a")); (s [(SSym (s2l "lit")); (SInt (42))])]); (SSym (s2l "*b")); (SSym (s2l "c")); (SSym (s2l "&d"))])]));
  (3004, (s2l "f { |a = 42, b| }"), Some (s [(SSym (s2l "iter")); (s [(SSym (s2l "call")); SNil; (SSym (s2l "f"))]); (s [(SSym (s2l "args")); (s [(SSym (s2l "lasgn")); (SSym (s2l "a")); (s [(SSym (s2l "lit")); (SInt (42))])]); (SSym (s2l "b"))])]));
  (3012, (s2l "f { |a = 42, b, &c| }"), Some (s [(SSym (s2l "iter")); (s [(SSym (s2l "call")); SNil; (SSym (s2l "f"))]); (s [(SSym (s2l "args")); (s [(SSym (s2l "lasgn")); (SSym (s2l "a")); (s [(SSym (s2l "lit")); (SInt (42))])]); (SSym (s2l "b")); (SSym (s2l "&c"))])]));
  (3020, (s2l "f { |a, (b, *c)| }"), Some (s [(SSym (s2l "iter")); (s [(SSym (s2l "call")); SNil; (SSym (s2l "f"))]); (s [(SSym (s2l "args")); (SSym (s2l "a")); (s [(SSym (s2l "masgn")); (SSym (s2l "b")); (SSym (s2l "*c"))])])]));
  (3029, (s2l "f { |*a, b| }"), Some (s [(SSym (s2l "iter")); (s [(SSym (s2l "call")); SNil; (SSym (s2l "f"))]); (s [(SSym (s2l "args")); (SSym (s2l "*a")); (SSym (s2l "b"))])]));
  (3036, (s2l "f { |*a, b, &c| }"), Some (s [(SSym (s2l "iter")); (s [(SSym (s2l "call")); SNil; (SSym (s2l "f"))]); (s [(SSym (s2l "args")); (SSym (s2l "*a")); (SSym (s2l "b")); (SSym (s2l "&c"))])]));
  (3043, (s2l "a=b ? true: false"), Some (s [(SSym (s2l "lasgn")); (SSym (s2l "a")); (s [(SSym (s2l "if")); (s [(SSym (s2l "call")); SNil; (SSym (s2l "b"))]); (s [(SSym (s2l "true"))]); (s [(SSym (s2l "false"))])])]));
  (3050, (s2l "f ->() { g do end }"), Some (s [(SSym (s2l "call")); SNil; (SSym (s2l "f")); (s [(SSym (s2l "iter")); (s [(SSym (s2l "lambda"))]); (s [(SSym (s2l "args"))]); (s [(SSym (s2l "iter")); (s [(SSym (s2l "call")); SNil; (SSym (s2l "g"))]); (SInt (0))])])]));
  (3061, (s2l "f { |a, (*b, c)| }"), Some (s [(SSym (s2l "iter")); (s [(SSym (s2l "call")); SNil; (SSym (s2l "f"))]); (s [(SSym (s2l "args")); (SSym (s2l "a")); (s [(SSym (s2l "masgn")); (SSym (s2l "*b")); (SSym (s2l "c"))])])]));
  (3071, (s2l "f { |a, (*)| }"), Some (s [(SSym (s2l "iter")); (s [(SSym (s2l "call")); SNil; (SSym (s2l "f"))]); (s [(SSym (s2l "args")); (SSym (s2l "a")); (s [(SSym (s2l "masgn")); (SSym (s2l "*"))])])]));
  (3081, (s2l "f { |a, (*, b)| }"), Some (s [(SSym (s2l "iter")); (s [(SSym (s2l "call")); SNil; (SSym (s2l "f"))]); (s [(SSym (s2l "args")); (SSym (s2l "a")); (s [(SSym (s2l "masgn")); (SSym (s2l "*")); (SSym (s2l "b"))])])]));
  (3091, (s2l "f { |a, (b, *c, d)| }"), Some (s [(SSym (s2l "iter")); (s [(SSym (s2l "call")); SNil; (SSym (s2l "f"))]); (s [(SSym (s2l "args")); (SSym (s2l "a")); (s [(SSym (s2l "masgn")); (SSym (s2l "b")); (SSym (s2l "*c")); (SSym (s2l "d"))])])]));
  (3101, (s2l "f { |a, (b, *)| }"), Some (s [(SSym (s2l "iter")); (s [(SSym (s2l "call")); SNil; (SSym (s2l "f"))]); (s [(SSym (s2l "args")); (SSym (s2l "a")); (s [(SSym (s2l "masgn")); (SSym (s2l "b")); (SSym (s2l "*"))])])]));
  (3111, (s2l "f { |a, (b, *, c)| }"), Some (s [(SSym (s2l "iter")); (s [(SSym (s2l "call")); SNil; (SSym (s2l "f"))]); (s [(SSym (s2l "args")); (SSym (s2l "a")); (s [(SSym (s2l "masgn")); (SSym (s2l "b")); (SSym (s2l "*")); (SSym (s2l "c"))])])]));
  (3121, (s2l "f { |a, (*b)| }"), Some (s [(SSym (s2l "iter")); (s [(SSym (s2l "call")); SNil; (SSym (s2l "f"))]); (s [(SSym (s2l "args")); (SSym (s2l "a")); (s [(SSym (s2l "masgn")); (SSym (s2l "*b"))])])]));
  (3131, (s2l "f ->() {}"), Some (s [(SSym (s2l "call")); SNil; (SSym (s2l "f")); (s [(SSym (s2l "iter")); (s [(SSym (s2l "lambda"))]); (s [(SSym (s2l "args"))])])]));
  (3131, (s2l "f ->() do end"), Some (s [(SSym (s2l "call")); SNil; (SSym (s2l "f")); (s [(SSym (s2l "iter")); (s [(SSym (s2l "lambda"))]); (s [(SSym (s2l "args"))])])]));
  (3131, (s2l "f -> {}"), Some (s [(SSym (s2l "call")); SNil; (SSym (s2l "f")); (s [(SSym (s2l "iter")); (s [(SSym (s2l "lambda"))]); (SInt (0))])]));
  (3131, (s2l "f -> do end"), Some (s [(SSym (s2l "call")); SNil; (SSym (s2l "f")); (s [(SSym (s2l "iter")); (s [(SSym (s2l "lambda"))]); (SInt (0))])]));
  (3149, (s2l "a = b = c 1"), Some (s [(SSym (s2l "lasgn")); (SSym (s2l "a")); (s [(SSym (s2l "lasgn")); (SSym (s2l "b")); (s [(SSym (s2l "call")); SNil; (SSym (s2l "c")); (s [(SSym (s2l "lit")); (SInt (1))])])])]));
  (3156, (s2l "*, a = b"), Some (s [(SSym (s2l "masgn")); (s [(SSym (s2l "array")); (s [(SSym (s2l "splat"))]); (s [(SSym (s2l "lasgn")); (SSym (s2l "a"))])]); (s [(SSym (s2l "to_ary")); (s [(SSym (s2l "call")); SNil; (SSym (s2l "b"))])])]));
  (3165, (s2l "a, *b, c = d"), Some (s [(SSym (s2l "masgn")); (s [(SSym (s2l "array")); (s [(SSym (s2l "lasgn")); (SSym (s2l "a"))]); (s [(SSym (s2l "splat")); (s [(SSym (s2l "lasgn")); (SSym (s2l "b"))])]); (s [(SSym (s2l "lasgn")); (SSym (s2l "c"))])]); (s [(SSym (s2l "to_ary")); (s [(SSym (s2l "call")); SNil; (SSym (s2l "d"))])])]));
  (3174, (s2l "*a, b = c"), Some (s [(SSym (s2l "masgn")); (s [(SSym (s2l "array")); (s [(SSym (s2l "splat")); (s [(SSym (s2l "lasgn")); (SSym (s2l "a"))])]); (s [(SSym (s2l "lasgn")); (SSym (s2l "b"))])]); (s [(SSym (s2l "to_ary")); (s [(SSym (s2l "call")); SNil; (SSym (s2l "c"))])])]));
  (3183, (s2l "*a, b, c = d"), Some (s [(SSym (s2l "masgn")); (s [(SSym (s2l "array")); (s [(SSym (s2l "splat")); (s [(SSym (s2l "lasgn")); (SSym (s2l "a"))])]); (s [(SSym (s2l "lasgn")); (SSym (s2l "b"))]); (s [(SSym (s2l "lasgn")); (SSym (s2l "c"))])]); (s [(SSym (s2l "to_ary")); (s [(SSym (s2l "call")); SNil; (SSym (s2l "d"))])])]));
  (3192, (s2l "a, *, b = c"), Some (s [(SSym (s2l "masgn")); (s [(SSym (s2l "array")); (s [(SSym (s2l "lasgn")); (SSym (s2l "a"))]); (s [(SSym (s2l "splat"))]); (s [(SSym (s2l "lasgn")); (SSym (s2l "b"))])]); (s [(SSym (s2l "to_ary")); (s [(SSym (s2l "call")); SNil; (SSym (s2l "c"))])])]));
  (3201, (s2l "a.f(1=>2,)"), Some (s [(SSym (s2l "call")); (s [(SSym (s2l "call")); SNil; (SSym (s2l "a"))]); (SSym (s2l "f")); (s [(SSym (s2l "bare_hash")); (s [(SSym (s2l "lit")); (SInt (1))]); (s [(SSym (s2l "lit")); (SInt (2))])])]));
  (3208, (s2l "a.f(1,)"), Some (s [(SSym (s2l "call")); (s [(SSym (s2l "call")); SNil; (SSym (s2l "a"))]); (SSym (s2l "f")); (s [(SSym (s2l "lit")); (SInt (1))])]));
  (3215, (s2l "a, b, c, * = f"), Some (s [(SSym (s2l "masgn")); (s [(SSym (s2l "array")); (s [(SSym (s2l "lasgn")); (SSym (s2l "a"))]); (s [(SSym (s2l "lasgn")); (SSym (s2l "b"))]); (s [(SSym (s2l "lasgn")); (SSym (s2l "c"))]); (s [(SSym (s2l "splat"))])]); (s [(SSym (s2l "to_ary")); (s [(SSym (s2l "call")); SNil; (SSym (s2l "f"))])])]));
  (3226, (s2l "a, b, c, *s = f"), Some (s [(SSym (s2l "masgn")); (s [(SSym (s2l "array")); (s [(SSym (s2l "lasgn")); (SSym (s2l "a"))]); (s [(SSym (s2l "lasgn")); (SSym (s2l "b"))]); (s [(SSym (s2l "lasgn")); (SSym (s2l "c"))]); (s [(SSym (s2l "splat")); (s [(SSym (s2l "lasgn")); (SSym (s2l "s"))])])]); (s [(SSym (s2l "to_ary")); (s [(SSym (s2l "call")); SNil; (SSym (s2l "f"))])])]));
  (3237, (s2l "*, x, y, z = f"), Some (s [(SSym (s2l "masgn")); (s [(SSym (s2l "array")); (s [(SSym (s2l "splat"))]); (s [(SSym (s2l "lasgn")); (SSym (s2l "x"))]); (s [(SSym (s2l "lasgn")); (SSym (s2l "y"))]); (s [(SSym (s2l "lasgn")); (SSym (s2l "z"))])]); (s [(SSym (s2l "to_ary")); (s [(SSym (s2l "call")); SNil; (SSym (s2l "f"))])])]));
  (3248, (s2l "*s, x, y, z = f"), Some (s [(SSym (s2l "masgn")); (s [(SSym (s2l "array")); (s [(SSym (s2l "splat")); (s [(SSym (s2l "lasgn")); (SSym (s2l "s"))])]); (s [(SSym (s2l "lasgn")); (SSym (s2l "x"))]); (s [(SSym (s2l "lasgn")); (SSym (s2l "y"))]); (s [(SSym (s2l "lasgn")); (SSym (s2l "z"))])]); (s [(SSym (s2l "to_ary")); (s [(SSym (s2l "call")); SNil; (SSym (s2l "f"))])])]));
  (3259, (s2l "a.!=(true, true)"), Some (s [(SSym (s2l "call")); (s [(SSym (s2l "call")); SNil; (SSym (s2l "a"))]); (SSym (s2l "!=")); (s [(SSym (s2l "true"))]); (s [(SSym (s2l "true"))])]));
  (3266, (s2l "a, b, c, *, x, y, z = f"), Some (s [(SSym (s2l "masgn")); (s [(SSym (s2l "array")); (s [(SSym (s2l "lasgn")); (SSym (s2l "a"))]); (s [(SSym (s2l "lasgn")); (SSym (s2l "b"))]); (s [(SSym (s2l "lasgn")); (SSym (s2l "c"))]); (s [(SSym (s2l "splat"))]); (s [(SSym (s2l "lasgn")); (SSym (s2l "x"))]); (s [(SSym (s2l "lasgn")); (SSym (s2l "y"))]); (s [(SSym (s2l "lasgn")); (SSym (s2l "z"))])]); (s [(SSym (s2l "to_ary")); (s [(SSym (s2l "call")); SNil; (SSym (s2l "f"))])])]));
  (3278, (s2l "a, b, c, *s, x, y, z = f"), Some (s [(SSym (s2l "masgn")); (s [(SSym (s2l "array")); (s [(SSym (s2l "lasgn")); (SSym (s2l "a"))]); (s [(SSym (s2l "lasgn")); (SSym (s2l "b"))]); (s [(SSym (s2l "lasgn")); (SSym (s2l "c"))]); (s [(SSym (s2l "splat")); (s [(SSym (s2l "lasgn")); (SSym (s2l "s"))])]); (s [(SSym (s2l "lasgn")); (SSym (s2l "x"))]); (s [(SSym (s2l "lasgn")); (SSym (s2l "y"))]); (s [(SSym (s2l "lasgn")); (SSym (s2l "z"))])]); (s [(SSym (s2l "to_ary")); (s [(SSym (s2l "call")); SNil; (SSym (s2l "f"))])])]));
  (3290, [97; 10; 46; 98; 10; 46; 99]%N, Some (s [(SSym (s2l "call")); (s [(SSym (s2l "call")); (s [(SSym (s2l "call")); SNil; (SSym (s2l "a"))]); (SSym (s2l "b"))]); (SSym (s2l "c"))]));
  (3297, [97; 10; 46; 98; 10; 35; 46; 99; 10; 46; 100]%N, Some (sl 4 [(SSym (s2l "call")); (sl 2 [(SSym (s2l "call")); (sl 1 [(SSym (s2l "call")); SNil; (SSym (s2l "a"))]); (SSym (s2l "b"))]); (SSym (s2l "d"))]));
  (3308, [97; 46; 10; 98; 46; 10; 99]%N, Some (sl 2 [(SSym (s2l "call")); (s [(SSym (s2l "call")); (s [(SSym (s2l "call")); SNil; (SSym (s2l "a"))]); (SSym (s2l "b"))]); (SSym (s2l "c"))]));
  (3315, [97; 10; 46; 98]%N, Some (sl 2 [(SSym (s2l "call")); (s [(SSym (s2l "call")); SNil; (SSym (s2l "a"))]); (SSym (s2l "b"))]));
  (3322, [49; 10; 46; 46; 51]%N, Some (s [(SSym (s2l "block")); (s [(SSym (s2l "lit")); (SInt (1))]); (sl 2 [(SSym (s2l "dot2")); SNil; (sl 2 [(SSym (s2l "lit")); (SInt (3))])])]));
  (3344, (s2l "def next; end"), Some (s [(SSym (s2l "defn")); (SSym (s2l "next")); (s [(SSym (s2l "args"))]); (s [(SSym (s2l "nil"))])]));
  (3351, (s2l "def f(a, *b, c = nil) end"), None);
  (3357, (s2l "def f(a = nil, *b, c = nil) end"), None);
  (3363, [105; 102; 32; 110; 111; 116; 32; 118; 97; 114; 46; 110; 105; 108; 63; 32; 116; 104; 101; 110; 32; 39; 102; 111; 111; 39; 32; 101; 108; 115; 101; 32; 39; 98; 97; 114; 39; 10; 101; 110; 100]%N, Some (s [(SSym (s2l "if")); (s [(SSym (s2l "call")); (s [(SSym (s2l "call")); (s [(SSym (s2l "call")); SNil; (SSym (s2l "var"))]); (SSym (s2l "nil?"))]); (SSym (s2l "!"))]); (s [(SSym (s2l "str")); (SStr (s2l "foo"))]); (s [(SSym (s2l "str")); (SStr (s2l "bar"))])]));
  (3386, (s2l "1[2=>3,]"), Some (s [(SSym (s2l "call")); (s [(SSym (s2l "lit")); (SInt (1))]); (SSym (s2l "[]")); (s [(SSym (s2l "bare_hash")); (s [(SSym (s2l "lit")); (SInt (2))]); (s [(SSym (s2l "lit")); (SInt (3))])])]));
  (3393, (s2l "1[2,]"), Some (s [(SSym (s2l "call")); (s [(SSym (s2l "lit")); (SInt (1))]); (SSym (s2l "[]")); (s [(SSym (s2l "lit")); (SInt (2))])]));
  (3400, [117; 110; 116; 105; 108; 32; 110; 111; 116; 32; 118; 97; 114; 46; 110; 105; 108; 63; 10; 32; 32; 39; 102; 111; 111; 39; 10; 101; 110; 100]%N, Some (s [(SSym (s2l "until")); (s [(SSym (s2l "call")); (s [(SSym (s2l "call")); (s [(SSym (s2l "call")); SNil; (SSym (s2l "var"))]); (SSym (s2l "nil?"))]); (SSym (s2l "!"))]); (sl 2 [(SSym (s2l "str")); (SStr (s2l "foo"))]); STrue]));
  (3421, [119; 104; 105; 108; 101; 32; 110; 111; 116; 32; 118; 97; 114; 46; 110; 105; 108; 63; 10; 32; 32; 39; 102; 111; 111; 39; 10; 101; 110; 100]%N, Some (s [(SSym (s2l "while")); (s [(SSym (s2l "call")); (s [(SSym (s2l "call")); (s [(SSym (s2l "call")); SNil; (SSym (s2l "var"))]); (SSym (s2l "nil?"))]); (SSym (s2l "!"))]); (sl 2 [(SSym (s2l "str")); (SStr (s2l "foo"))]); STrue]));
  (3442, (s2l "a.b do | ; c | end"), Some (s [(SSym (s2l "iter")); (s [(SSym (s2l "call")); (s [(SSym (s2l "call")); SNil; (SSym (s2l "a"))]); (SSym (s2l "b"))]); (s [(SSym (s2l "args")); (s [(SSym (s2l "shadow")); (SSym (s2l "c"))])])]));
  (3449, (s2l "return y(z:1)"), Some (s [(SSym (s2l "return")); (s [(SSym (s2l "call")); SNil; (SSym (s2l "y")); (s [(SSym (s2l "bare_hash")); (s [(SSym (s2l "lit")); (SSym (s2l "z"))]); (s [(SSym (s2l "lit")); (SInt (1))])])])]));
  (3449, (s2l "return y z:1"), Some (s [(SSym (s2l "return")); (s [(SSym (s2l "call")); SNil; (SSym (s2l "y")); (s [(SSym (s2l "bare_hash")); (s [(SSym (s2l "lit")); (SSym (s2l "z"))]); (s [(SSym (s2l "lit")); (SInt (1))])])])]));
  (3449, (s2l "return y(z=>1)"), Some (s [(SSym (s2l "return")); (s [(SSym (s2l "call")); SNil; (SSym (s2l "y")); (s [(SSym (s2l "bare_hash")); (s [(SSym (s2l "call")); SNil; (SSym (s2l "z"))]); (s [(SSym (s2l "lit")); (SInt (1))])])])]));
  (3449, (s2l "return y :z=>1"), Some (s [(SSym (s2l "return")); (s [(SSym (s2l "call")); SNil; (SSym (s2l "y")); (s [(SSym (s2l "bare_hash")); (s [(SSym (s2l "lit")); (SSym (s2l "z"))]); (s [(SSym (s2l "lit")); (SInt (1))])])])]));
  (3449, (s2l "return 1, :z => 1"), Some (s [(SSym (s2l "return")); (s [(SSym (s2l "array")); (s [(SSym (s2l "lit")); (SInt (1))]); (s [(SSym (s2l "bare_hash")); (s [(SSym (s2l "lit")); (SSym (s2l "z"))]); (s [(SSym (s2l "lit")); (SInt (1))])])])]));
  (3449, (s2l "return 1, :z => 1, :w => 2"), Some (s [(SSym (s2l "return")); (s [(SSym (s2l "array")); (s [(SSym (s2l "lit")); (SInt (1))]); (s [(SSym (s2l "bare_hash")); (s [(SSym (s2l "lit")); (SSym (s2l "z"))]); (s [(SSym (s2l "lit")); (SInt (1))]); (s [(SSym (s2l "lit")); (SSym (s2l "w"))]); (s [(SSym (s2l "lit")); (SInt (2))])])])]));
  (3487, (s2l "->a{}"), Some (s [(SSym (s2l "iter")); (s [(SSym (s2l "lambda"))]); (s [(SSym (s2l "args")); (SSym (s2l "a"))])]));
  (3494, (s2l "->(b, c=1, *d, e, &f){}"), Some (s [(SSym (s2l "iter")); (s [(SSym (s2l "lambda"))]); (s [(SSym (s2l "args")); (SSym (s2l "b")); (s [(SSym (s2l "lasgn")); (SSym (s2l "c")); (s [(SSym (s2l "lit")); (SInt (1))])]); (SSym (s2l "*d")); (SSym (s2l "e")); (SSym (s2l "&f"))])]));
  (3503, (s2l "->(a; b) {}"), Some (s [(SSym (s2l "iter")); (s [(SSym (s2l "lambda"))]); (s [(SSym (s2l "args")); (SSym (s2l "a")); (s [(SSym (s2l "shadow")); (SSym (s2l "b"))])])]));
  (3517, (s2l "f.(42)"), Some (s [(SSym (s2l "call")); (s [(SSym (s2l "call")); SNil; (SSym (s2l "f"))]); (SSym (s2l "call")); (s [(SSym (s2l "lit")); (SInt (42))])]));
  (3517, (s2l "f::(42)"), Some (s [(SSym (s2l "call")); (s [(SSym (s2l "call")); SNil; (SSym (s2l "f"))]); (SSym (s2l "call")); (s [(SSym (s2l "lit")); (SInt (42))])]));
  (3527, (s2l "+:a"), Some (s [(SSym (s2l "call")); (s [(SSym (s2l "lit")); (SSym (s2l "a"))]); (SSym (s2l "+@"))]));
  (3534, (s2l "->(a, b=nil) { p [a, b] }"), Some (s [(SSym (s2l "iter")); (s [(SSym (s2l "lambda"))]); (s [(SSym (s2l "args")); (SSym (s2l "a")); (s [(SSym (s2l "lasgn")); (SSym (s2l "b")); (s [(SSym (s2l "nil"))])])]); (s [(SSym (s2l "call")); SNil; (SSym (s2l "p")); (s [(SSym (s2l "array")); (s [(SSym (s2l "lvar")); (SSym (s2l "a"))]); (s [(SSym (s2l "lvar")); (SSym (s2l "b"))])])])]));
  (3554, (s2l "yield y(z:1)"), Some (s [(SSym (s2l "yield")); (s [(SSym (s2l "call")); SNil; (SSym (s2l "y")); (s [(SSym (s2l "bare_hash")); (s [(SSym (s2l "lit")); (SSym (s2l "z"))]); (s [(SSym (s2l "lit")); (SInt (1))])])])]));
  (3554, (s2l "yield y z:1"), Some (s [(SSym (s2l "yield")); (s [(SSym (s2l "call")); SNil; (SSym (s2l "y")); (s [(SSym (s2l "bare_hash")); (s [(SSym (s2l "lit")); (SSym (s2l "z"))]); (s [(SSym (s2l "lit")); (SInt (1))])])])]));
  (3554, (s2l "yield y(z=>1)"), Some (s [(SSym (s2l "yield")); (s [(SSym (s2l "call")); SNil; (SSym (s2l "y")); (s [(SSym (s2l "bare_hash")); (s [(SSym (s2l "call")); SNil; (SSym (s2l "z"))]); (s [(SSym (s2l "lit")); (SInt (1))])])])]));
  (3554, (s2l "yield y :z=>1"), Some (s [(SSym (s2l "yield")); (s [(SSym (s2l "call")); SNil; (SSym (s2l "y")); (s [(SSym (s2l "bare_hash")); (s [(SSym (s2l "lit")); (SSym (s2l "z"))]); (s [(SSym (s2l "lit")); (SInt (1))])])])]));
  (3554, (s2l "yield 1, :z => 1"), Some (s [(SSym (s2l "yield")); (s [(SSym (s2l "lit")); (SInt (1))]); (s [(SSym (s2l "bare_hash")); (s [(SSym (s2l "lit")); (SSym (s2l "z"))]); (s [(SSym (s2l "lit")); (SInt (1))])])]));
  (3554, (s2l "yield 1, :z => 1, :w => 2"), Some (s [(SSym (s2l "yield")); (s [(SSym (s2l "lit")); (SInt (1))]); (s [(SSym (s2l "bare_hash")); (s [(SSym (s2l "lit")); (SSym (s2l "z"))]); (s [(SSym (s2l "lit")); (SInt (1))]); (s [(SSym (s2l "lit")); (SSym (s2l "w"))]); (s [(SSym (s2l "lit")); (SInt (2))])])]))].
Example ruby_parser_1_passes : forallb passes ruby_parser_1 = true.
Proof. vm_compute. reflexivity. Qed.

(** /repo/test/test_ruby_parser.rb, lines 3590-5478. *)
Definition ruby_parser_2 : list (N * str * option sexp) := [
  (3590, [32; 32; 32; 32; 32; 32; 123; 10; 32; 32; 32; 32; 32; 32; 32; 32; 97; 58; 32; 108; 97; 109; 98; 100; 97; 32; 123; 32; 98; 32; 63; 32; 99; 40; 41; 32; 58; 32; 100; 32; 125; 44; 10; 32; 32; 32; 32; 32; 32; 32; 32; 101; 58; 32; 110; 105; 108; 44; 10; 32; 32; 32; 32; 32; 32; 125; 10]%N, Some (s [(SSym (s2l "hash")); (s [(SSym (s2l "lit")); (SSym (s2l "a"))]); (s [(SSym (s2l "iter")); (s [(SSym (s2l "call")); SNil; (SSym (s2l "lambda"))]); (SInt (0)); (s [(SSym (s2l "if")); (s [(SSym (s2l "call")); SNil; (SSym (s2l "b"))]); (s [(SSym (s2l "call")); SNil; (SSym (s2l "c"))]); (s [(SSym (s2l "call")); SNil; (SSym (s2l "d"))])])]); (s [(SSym (s2l "lit")); (SSym (s2l "e"))]); (s [(SSym (s2l "nil"))])]));
  (3631, (s2l "/\u{df}/"), Some (s [(SSym (s2l "lit")); (SRegexp (s2l "\u{df}") 0)]));
  (3631, (s2l "/\u{c0de babe}/"), Some (s [(SSym (s2l "lit")); (SRegexp (s2l "\u{c0de babe}") 0)]));
  (3643, [37; 113; 40; 1; 92; 39; 41]%N, Some (s [(SSym (s2l "str")); (SStr [1; 92; 39]%N)]));
  (3701, (s2l "/[\u0021-\u0027]/"), Some (s [(SSym (s2l "lit")); (SRegexp (s2l "[\u0021-\u0027]") 0)]));
  (3708, (s2l "%q|blah blah \| blah blah|"), Some (s [(SSym (s2l "str")); (SStr (s2l "blah blah | blah blah"))]));
  (3715, (s2l "def f(a: 1, &b); end"), Some (s [(SSym (s2l "defn")); (SSym (s2l "f")); (s [(SSym (s2l "args")); (s [(SSym (s2l "kwarg")); (SSym (s2l "a")); (s [(SSym (s2l "lit")); (SInt (1))])]); (SSym (s2l "&b"))]); (s [(SSym (s2l "nil"))])]));
  (3722, [34; 32; 32; 119; 104; 121; 32; 119; 111; 117; 108; 100; 32; 115; 111; 109; 101; 111; 110; 101; 32; 100; 111; 32; 116; 104; 105; 115; 63; 32; 92; 10; 32; 32; 98; 108; 97; 104; 10; 34]%N, Some (s [(SSym (s2l "str")); (SStr [32; 32; 119; 104; 121; 32; 119; 111; 117; 108; 100; 32; 115; 111; 109; 101; 111; 110; 101; 32; 100; 111; 32; 116; 104; 105; 115; 63; 32; 32; 32; 98; 108; 97; 104; 10]%N)]));
  (3722, [60; 60; 45; 68; 69; 83; 67; 10; 32; 32; 119; 104; 121; 32; 119; 111; 117; 108; 100; 32; 115; 111; 109; 101; 111; 110; 101; 32; 100; 111; 32; 116; 104; 105; 115; 63; 32; 92; 10; 32; 32; 98; 108; 97; 104; 10; 68; 69; 83; 67]%N, Some (s [(SSym (s2l "str")); (SStr [32; 32; 119; 104; 121; 32; 119; 111; 117; 108; 100; 32; 115; 111; 109; 101; 111; 110; 101; 32; 100; 111; 32; 116; 104; 105; 115; 63; 32; 32; 32; 98; 108; 97; 104; 10]%N)]));
  (3733, [91; 34; 32; 32; 115; 111; 109; 101; 32; 116; 101; 120; 116; 10; 34; 44; 93]%N, Some (s [(SSym (s2l "array")); (s [(SSym (s2l "str")); (SStr [32; 32; 115; 111; 109; 101; 32; 116; 101; 120; 116; 10]%N)])]));
  (3733, [91; 60; 60; 45; 70; 73; 76; 69; 44; 10; 32; 32; 115; 111; 109; 101; 32; 116; 101; 120; 116; 10; 70; 73; 76; 69; 10; 93]%N, Some (s [(SSym (s2l "array")); (s [(SSym (s2l "str")); (SStr [32; 32; 115; 111; 109; 101; 32; 116; 101; 120; 116; 10]%N)])]));
  (3752, [37; 113; 123; 32; 92; 10; 125]%N, Some (s [(SSym (s2l "str")); (SStr [32; 92; 10]%N)]));
  (3759, [37; 81; 123; 32; 92; 10; 125]%N, Some (s [(SSym (s2l "str")); (SStr (s2l " "))]));
  (3766, (s2l "a { |**b| }"), Some (s [(SSym (s2l "iter")); (s [(SSym (s2l "call")); SNil; (SSym (s2l "a"))]); (s [(SSym (s2l "args")); (SSym (s2l "**b"))])]));
  (3773, (s2l "a.b c() do d end.e do |f| g end"), Some (s [(SSym (s2l "iter")); (s [(SSym (s2l "call")); (s [(SSym (s2l "iter")); (s [(SSym (s2l "call")); (s [(SSym (s2l "call")); SNil; (SSym (s2l "a"))]); (SSym (s2l "b")); (s [(SSym (s2l "call")); SNil; (SSym (s2l "c"))])]); (SInt (0)); (s [(SSym (s2l "call")); SNil; (SSym (s2l "d"))])]); (SSym (s2l "e"))]); (s [(SSym (s2l "args")); (SSym (s2l "f"))]); (s [(SSym (s2l "call")); SNil; (SSym (s2l "g"))])]));
  (3788, (s2l "a [ nil, b do end ]"), Some (s [(SSym (s2l "call")); SNil; (SSym (s2l "a")); (s [(SSym (s2l "array")); (s [(SSym (s2l "nil"))]); (s [(SSym (s2l "iter")); (s [(SSym (s2l "call")); SNil; (SSym (s2l "b"))]); (SInt (0))])])]));
  (3798, [97; 32; 40; 98; 41; 10; 99; 46; 100; 32; 100; 111; 32; 101; 110; 100]%N, Some (s [(SSym (s2l "block")); (s [(SSym (s2l "call")); SNil; (SSym (s2l "a")); (s [(SSym (s2l "call")); SNil; (SSym (s2l "b"))])]); (sl 2 [(SSym (s2l "iter")); (sl 2 [(SSym (s2l "call")); (sl 2 [(SSym (s2l "call")); SNil; (SSym (s2l "c"))]); (SSym (s2l "d"))]); (SInt (0))])]));
  (3808, [97; 32; 100; 101; 102; 32; 98; 40; 99; 41; 10; 32; 100; 10; 32; 101; 110; 100; 10; 32; 101; 46; 102; 32; 100; 111; 32; 101; 110; 100]%N, Some (s [(SSym (s2l "block")); (s [(SSym (s2l "call")); SNil; (SSym (s2l "a")); (s [(SSym (s2l "defn")); (SSym (s2l "b")); (s [(SSym (s2l "args")); (SSym (s2l "c"))]); (sl 2 [(SSym (s2l "call")); SNil; (SSym (s2l "d"))])])]); (sl 4 [(SSym (s2l "iter")); (sl 4 [(SSym (s2l "call")); (sl 4 [(SSym (s2l "call")); SNil; (SSym (s2l "e"))]); (SSym (s2l "f"))]); (SInt (0))])]));
  (3819, [97; 32; 91; 45; 62; 40; 41; 32; 123; 125; 93; 32; 100; 111; 10; 101; 110; 100]%N, Some (s [(SSym (s2l "iter")); (s [(SSym (s2l "call")); SNil; (SSym (s2l "a")); (s [(SSym (s2l "array")); (s [(SSym (s2l "iter")); (s [(SSym (s2l "lambda"))]); (s [(SSym (s2l "args"))])])])]); (SInt (0))]));
  (3829, [97; 32; 98; 101; 103; 105; 110; 10; 98; 46; 99; 32; 100; 111; 32; 101; 110; 100; 10; 101; 110; 100]%N, Some (s [(SSym (s2l "call")); SNil; (SSym (s2l "a")); (sl 2 [(SSym (s2l "iter")); (sl 2 [(SSym (s2l "call")); (sl 2 [(SSym (s2l "call")); SNil; (SSym (s2l "b"))]); (SSym (s2l "c"))]); (SInt (0))])]));
  (3863, (s2l "a.b c() do d end.e f do |g| h end"), Some (s [(SSym (s2l "iter")); (s [(SSym (s2l "call")); (s [(SSym (s2l "iter")); (s [(SSym (s2l "call")); (s [(SSym (s2l "call")); SNil; (SSym (s2l "a"))]); (SSym (s2l "b")); (s [(SSym (s2l "call")); SNil; (SSym (s2l "c"))])]); (SInt (0)); (s [(SSym (s2l "call")); SNil; (SSym (s2l "d"))])]); (SSym (s2l "e")); (s [(SSym (s2l "call")); SNil; (SSym (s2l "f"))])]); (s [(SSym (s2l "args")); (SSym (s2l "g"))]); (s [(SSym (s2l "call")); SNil; (SSym (s2l "h"))])]));
  (3879, (s2l "bl { |kw: :val| kw }"), Some (s [(SSym (s2l "iter")); (s [(SSym (s2l "call")); SNil; (SSym (s2l "bl"))]); (s [(SSym (s2l "args")); (s [(SSym (s2l "kwarg")); (SSym (s2l "kw")); (s [(SSym (s2l "lit")); (SSym (s2l "val"))])])]); (s [(SSym (s2l "lvar")); (SSym (s2l "kw"))])]));
  (3887, (s2l "bl { |kw: :val, kw2: :val2 | kw }"), Some (s [(SSym (s2l "iter")); (s [(SSym (s2l "call")); SNil; (SSym (s2l "bl"))]); (s [(SSym (s2l "args")); (s [(SSym (s2l "kwarg")); (SSym (s2l "kw")); (s [(SSym (s2l "lit")); (SSym (s2l "val"))])]); (s [(SSym (s2l "kwarg")); (SSym (s2l "kw2")); (s [(SSym (s2l "lit")); (SSym (s2l "val2"))])])]); (s [(SSym (s2l "lvar")); (SSym (s2l "kw"))])]));
  (3898, [109; 111; 117; 110; 116; 32; 40; 67; 108; 97; 115; 115; 46; 110; 101; 119; 32; 100; 111; 10; 100; 101; 102; 32; 105; 110; 105; 116; 105; 97; 108; 105; 122; 101; 10; 101; 110; 100; 10; 32; 101; 110; 100; 41; 46; 110; 101; 119; 44; 32; 58; 97; 116; 32; 61; 62; 32; 39; 101; 110; 100; 112; 111; 105; 110; 116; 39]%N, Some (s [(SSym (s2l "call")); SNil; (SSym (s2l "mount")); (sl 4 [(SSym (s2l "call")); (s [(SSym (s2l "iter")); (s [(SSym (s2l "call")); (s [(SSym (s2l "const")); (SSym (s2l "Class"))]); (SSym (s2l "new"))]); (SInt (0)); (sl 2 [(SSym (s2l "defn")); (SSym (s2l "initialize")); (sl 2 [(SSym (s2l "args"))]); (sl 2 [(SSym (s2l "nil"))])])]); (SSym (s2l "new"))]); (sl 4 [(SSym (s2l "bare_hash")); (sl 4 [(SSym (s2l "lit")); (SSym (s2l "at"))]); (sl 4 [(SSym (s2l "str")); (SStr (s2l "endpoint"))])])]));
  (3912, (s2l "f(1, kw: 2, **3)"), Some (s [(SSym (s2l "call")); SNil; (SSym (s2l "f")); (s [(SSym (s2l "lit")); (SInt (1))]); (s [(SSym (s2l "bare_hash")); (s [(SSym (s2l "lit")); (SSym (s2l "kw"))]); (s [(SSym (s2l "lit")); (SInt (2))]); (s [(SSym (s2l "kwsplat")); (s [(SSym (s2l "lit")); (SInt (3))])])])]));
  (3921, (s2l "a(b, **1)"), Some (s [(SSym (s2l "call")); SNil; (SSym (s2l "a")); (s [(SSym (s2l "call")); SNil; (SSym (s2l "b"))]); (s [(SSym (s2l "bare_hash")); (s [(SSym (s2l "kwsplat")); (s [(SSym (s2l "lit")); (SInt (1))])])])]));
  (3928, (s2l "a(**1)"), Some (s [(SSym (s2l "call")); SNil; (SSym (s2l "a")); (s [(SSym (s2l "bare_hash")); (s [(SSym (s2l "kwsplat")); (s [(SSym (s2l "lit")); (SInt (1))])])])]));
  (3935, (s2l "def test(**testing) test_splat(**testing) end"), Some (s [(SSym (s2l "defn")); (SSym (s2l "test")); (s [(SSym (s2l "args")); (SSym (s2l "**testing"))]); (s [(SSym (s2l "call")); SNil; (SSym (s2l "test_splat")); (s [(SSym (s2l "bare_hash")); (s [(SSym (s2l "kwsplat")); (s [(SSym (s2l "lvar")); (SSym (s2l "testing"))])])])])]));
  (3943, (s2l "def f(a, b: 1, c: 2) end"), Some (s [(SSym (s2l "defn")); (SSym (s2l "f")); (s [(SSym (s2l "args")); (SSym (s2l "a")); (s [(SSym (s2l "kwarg")); (SSym (s2l "b")); (s [(SSym (s2l "lit")); (SInt (1))])]); (s [(SSym (s2l "kwarg")); (SSym (s2l "c")); (s [(SSym (s2l "lit")); (SInt (2))])])]); (s [(SSym (s2l "nil"))])]));
  (3953, (s2l "def a(b: 1, **c) end"), Some (s [(SSym (s2l "defn")); (SSym (s2l "a")); (s [(SSym (s2l "args")); (s [(SSym (s2l "kwarg")); (SSym (s2l "b")); (s [(SSym (s2l "lit")); (SInt (1))])]); (SSym (s2l "**c"))]); (s [(SSym (s2l "nil"))])]));
  (3960, (s2l "def a(b: 1, **) end"), Some (s [(SSym (s2l "defn")); (SSym (s2l "a")); (s [(SSym (s2l "args")); (s [(SSym (s2l "kwarg")); (SSym (s2l "b")); (s [(SSym (s2l "lit")); (SInt (1))])]); (SSym (s2l "**"))]); (s [(SSym (s2l "nil"))])]));
  (3967, (s2l "def fun(kw: :val); kw; end"), Some (s [(SSym (s2l "defn")); (SSym (s2l "fun")); (s [(SSym (s2l "args")); (s [(SSym (s2l "kwarg")); (SSym (s2l "kw")); (s [(SSym (s2l "lit")); (SSym (s2l "val"))])])]); (s [(SSym (s2l "lvar")); (SSym (s2l "kw"))])]));
  (3974, [100; 101; 102; 32; 102; 32; 97; 58; 32; 49; 10; 101; 110; 100]%N, Some (s [(SSym (s2l "defn")); (SSym (s2l "f")); (s [(SSym (s2l "args")); (s [(SSym (s2l "kwarg")); (SSym (s2l "a")); (s [(SSym (s2l "lit")); (SInt (1))])])]); (s [(SSym (s2l "nil"))])]));
  (3981, (s2l "def f(a, b:1) end"), Some (s [(SSym (s2l "defn")); (SSym (s2l "f")); (s [(SSym (s2l "args")); (SSym (s2l "a")); (s [(SSym (s2l "kwarg")); (SSym (s2l "b")); (s [(SSym (s2l "lit")); (SInt (1))])])]); (s [(SSym (s2l "nil"))])]));
  (3988, (s2l "def f(**opts) end"), Some (s [(SSym (s2l "defn")); (SSym (s2l "f")); (s [(SSym (s2l "args")); (SSym (s2l "**opts"))]); (s [(SSym (s2l "nil"))])]));
  (3995, [100; 101; 102; 32; 115; 101; 108; 102; 46; 97; 32; 98; 58; 32; 49; 10; 101; 110; 100]%N, Some (s [(SSym (s2l "defs")); (s [(SSym (s2l "self"))]); (SSym (s2l "a")); (s [(SSym (s2l "args")); (s [(SSym (s2l "kwarg")); (SSym (s2l "b")); (s [(SSym (s2l "lit")); (SInt (1))])])]); (s [(SSym (s2l "nil"))])]));
  (4002, (s2l """#{p:a}"""), Some (s [(SSym (s2l "dstr")); (SStr (s2l "")); (s [(SSym (s2l "evstr")); (s [(SSym (s2l "call")); SNil; (SSym (s2l "p")); (s [(SSym (s2l "lit")); (SSym (s2l "a"))])])])]));
  (4009, [37; 73; 40; 10; 97; 10; 98; 10; 41; 10; 49]%N, Some (s [(SSym (s2l "block")); (s [(SSym (s2l "array")); (sl 2 [(SSym (s2l "lit")); (SSym (s2l "a"))]); (sl 3 [(SSym (s2l "lit")); (SSym (s2l "b"))])]); (sl 5 [(SSym (s2l "lit")); (SInt (1))])]));
  (4034, (s2l "a { |b: 1| }"), Some (s [(SSym (s2l "iter")); (s [(SSym (s2l "call")); SNil; (SSym (s2l "a"))]); (s [(SSym (s2l "args")); (s [(SSym (s2l "kwarg")); (SSym (s2l "b")); (s [(SSym (s2l "lit")); (SInt (1))])])])]));
  (4041, (s2l "a { |b: 1, **c| }"), Some (s [(SSym (s2l "iter")); (s [(SSym (s2l "call")); SNil; (SSym (s2l "a"))]); (s [(SSym (s2l "args")); (s [(SSym (s2l "kwarg")); (SSym (s2l "b")); (s [(SSym (s2l "lit")); (SInt (1))])]); (SSym (s2l "**c"))])]));
  (4048, [37; 105; 40; 10; 97; 10; 98; 10; 41; 10; 49]%N, Some (s [(SSym (s2l "block")); (s [(SSym (s2l "array")); (sl 2 [(SSym (s2l "lit")); (SSym (s2l "a"))]); (sl 3 [(SSym (s2l "lit")); (SSym (s2l "b"))])]); (sl 5 [(SSym (s2l "lit")); (SInt (1))])]));
  (4058, (s2l "%I(a b c)"), Some (s [(SSym (s2l "array")); (s [(SSym (s2l "lit")); (SSym (s2l "a"))]); (s [(SSym (s2l "lit")); (SSym (s2l "b"))]); (s [(SSym (s2l "lit")); (SSym (s2l "c"))])]));
  (4065, (s2l "%I()"), Some (s [(SSym (s2l "array"))]));
  (4072, (s2l "%I( )"), Some (s [(SSym (s2l "array"))]));
  (4079, (s2l "%I(a b#{1+1} c)"), Some (s [(SSym (s2l "array")); (s [(SSym (s2l "lit")); (SSym (s2l "a"))]); (s [(SSym (s2l "dsym")); (SStr (s2l "b")); (s [(SSym (s2l "evstr")); (s [(SSym (s2l "call")); (s [(SSym (s2l "lit")); (SInt (1))]); (SSym (s2l "+")); (s [(SSym (s2l "lit")); (SInt (1))])])])]); (s [(SSym (s2l "lit")); (SSym (s2l "c"))])]));
  (4089, [120; 32; 45; 62; 32; 40; 41; 32; 100; 111; 10; 97; 46; 98; 32; 100; 111; 10; 101; 110; 100; 10; 101; 110; 100]%N, Some (s [(SSym (s2l "call")); SNil; (SSym (s2l "x")); (s [(SSym (s2l "iter")); (s [(SSym (s2l "lambda"))]); (s [(SSym (s2l "args"))]); (sl 2 [(SSym (s2l "iter")); (sl 2 [(SSym (s2l "call")); (sl 2 [(SSym (s2l "call")); SNil; (SSym (s2l "a"))]); (SSym (s2l "b"))]); (SInt (0))])])]));
  (4100, [120; 32; 45; 62; 32; 40; 41; 32; 100; 111; 10; 97; 40; 49; 41; 32; 100; 111; 10; 101; 110; 100; 10; 101; 110; 100]%N, Some (s [(SSym (s2l "call")); SNil; (SSym (s2l "x")); (s [(SSym (s2l "iter")); (s [(SSym (s2l "lambda"))]); (s [(SSym (s2l "args"))]); (sl 2 [(SSym (s2l "iter")); (sl 2 [(SSym (s2l "call")); SNil; (SSym (s2l "a")); (sl 2 [(SSym (s2l "lit")); (SInt (1))])]); (SInt (0))])])]));
  (4113, (s2l "%i(a b c)"), Some (s [(SSym (s2l "array")); (s [(SSym (s2l "lit")); (SSym (s2l "a"))]); (s [(SSym (s2l "lit")); (SSym (s2l "b"))]); (s [(SSym (s2l "lit")); (SSym (s2l "c"))])]));
  (4120, (s2l "%i()"), Some (s [(SSym (s2l "array"))]));
  (4127, (s2l "%i( )"), Some (s [(SSym (s2l "array"))]));
  (4134, (s2l "%i(a b#{1+1} c)"), Some (s [(SSym (s2l "array")); (s [(SSym (s2l "lit")); (SSym (s2l "a"))]); (s [(SSym (s2l "lit")); (SSym (s2l "b#{1+1}"))]); (s [(SSym (s2l "lit")); (SSym (s2l "c"))])]));
  (4145, (s2l "[].b"), Some (s [(SSym (s2l "call")); (s [(SSym (s2l "array"))]); (SSym (s2l "b"))]));
  (4145, (s2l "%w[].b"), Some (s [(SSym (s2l "call")); (s [(SSym (s2l "array"))]); (SSym (s2l "b"))]));
  (4156, (s2l "blah { |k:42| }"), Some (s [(SSym (s2l "iter")); (s [(SSym (s2l "call")); SNil; (SSym (s2l "blah"))]); (s [(SSym (s2l "args")); (s [(SSym (s2l "kwarg")); (SSym (s2l "k")); (s [(SSym (s2l "lit")); (SInt (42))])])])]));
  (4156, (s2l "blah { |k:42| }"), Some (s [(SSym (s2l "iter")); (s [(SSym (s2l "call")); SNil; (SSym (s2l "blah"))]); (s [(SSym (s2l "args")); (s [(SSym (s2l "kwarg")); (SSym (s2l "k")); (s [(SSym (s2l "lit")); (SInt (42))])])])]));
  (4166, (s2l "blah do |k:| end"), Some (s [(SSym (s2l "iter")); (s [(SSym (s2l "call")); SNil; (SSym (s2l "blah"))]); (s [(SSym (s2l "args")); (s [(SSym (s2l "kwarg")); (SSym (s2l "k"))])])]));
  (4166, (s2l "blah do |k:| end"), Some (s [(SSym (s2l "iter")); (s [(SSym (s2l "call")); SNil; (SSym (s2l "blah"))]); (s [(SSym (s2l "args")); (s [(SSym (s2l "kwarg")); (SSym (s2l "k"))])])]));
  (4176, (s2l "<<E\nfoo\nE\rO"), None);
  (4183, (s2l "def !@; true; end"), Some (s [(SSym (s2l "defn")); (SSym (s2l "!@")); (s [(SSym (s2l "args"))]); (s [(SSym (s2l "true"))])]));
  (4190, (s2l "def x k:42; end"), Some (s [(SSym (s2l "defn")); (SSym (s2l "x")); (s [(SSym (s2l "args")); (s [(SSym (s2l "kwarg")); (SSym (s2l "k")); (s [(SSym (s2l "lit")); (SInt (42))])])]); (s [(SSym (s2l "nil"))])]));
  (4197, (s2l "def x k:; end"), Some (s [(SSym (s2l "defn")); (SSym (s2l "x")); (s [(SSym (s2l "args")); (s [(SSym (s2l "kwarg")); (SSym (s2l "k"))])]); (s [(SSym (s2l "nil"))])]));
  (4221, (s2l "-> (k:42) { }"), Some (s [(SSym (s2l "iter")); (s [(SSym (s2l "lambda"))]); (s [(SSym (s2l "args")); (s [(SSym (s2l "kwarg")); (SSym (s2l "k")); (s [(SSym (s2l "lit")); (SInt (42))])])])]));
  (4228, (s2l "-> (k:) { }"), Some (s [(SSym (s2l "iter")); (s [(SSym (s2l "lambda"))]); (s [(SSym (s2l "args")); (s [(SSym (s2l "kwarg")); (SSym (s2l "k"))])])]));
  (4246, (s2l "x 'k':42"), Some (s [(SSym (s2l "call")); SNil; (SSym (s2l "x")); (s [(SSym (s2l "bare_hash")); (s [(SSym (s2l "lit")); (SSym (s2l "k"))]); (s [(SSym (s2l "lit")); (SInt (42))])])]));
  (4246, (s2l "x ""k"":42"), Some (s [(SSym (s2l "call")); SNil; (SSym (s2l "x")); (s [(SSym (s2l "bare_hash")); (s [(SSym (s2l "lit")); (SSym (s2l "k"))]); (s [(SSym (s2l "lit")); (SInt (42))])])]));
  (4246, (s2l "x ""#{k}"":42"), Some (s [(SSym (s2l "call")); SNil; (SSym (s2l "x")); (s [(SSym (s2l "bare_hash")); (s [(SSym (s2l "dsym")); (SStr (s2l "")); (s [(SSym (s2l "evstr")); (s [(SSym (s2l "call")); SNil; (SSym (s2l "k"))])])]); (s [(SSym (s2l "lit")); (SInt (42))])])]));
  (4261, (s2l "puts 'a': {}"), Some (s [(SSym (s2l "call")); SNil; (SSym (s2l "puts")); (s [(SSym (s2l "bare_hash")); (s [(SSym (s2l "lit")); (SSym (s2l "a"))]); (s [(SSym (s2l "hash"))])])]));
  (4268, (s2l "{ 'a': :b }"), Some (s [(SSym (s2l "hash")); (s [(SSym (s2l "lit")); (SSym (s2l "a"))]); (s [(SSym (s2l "lit")); (SSym (s2l "b"))])]));
  (4301, (s2l "::X &= 1"), Some (s [(SSym (s2l "op_asgn")); (s [(SSym (s2l "colon3")); (SSym (s2l "X"))]); (SSym (s2l "&")); (s [(SSym (s2l "lit")); (SInt (1))])]));
  (4322, (s2l "1.0if true"), Some (s [(SSym (s2l "if")); (s [(SSym (s2l "true"))]); (s [(SSym (s2l "lit")); (SFloat false [])]); SNil]));
  (4337, [97; 32; 61; 32; 60; 60; 126; 34; 69; 79; 70; 34; 10; 32; 32; 120; 10; 32; 32; 121; 10; 32; 32; 122; 10; 32; 32; 69; 79; 70; 10; 10]%N, Some (s [(SSym (s2l "lasgn")); (SSym (s2l "a")); (s [(SSym (s2l "str")); (SStr [120; 10; 121; 10; 122; 10]%N)])]));
  (4344, [97; 32; 61; 32; 60; 60; 126; 69; 79; 70; 10; 32; 32; 32; 32; 32; 32; 119; 10; 32; 32; 120; 35; 123; 52; 50; 125; 32; 121; 10; 32; 32; 32; 32; 122; 10; 32; 32; 69; 79; 70]%N, Some (s [(SSym (s2l "lasgn")); (SSym (s2l "a")); (s [(SSym (s2l "dstr")); (SStr [32; 32; 32; 32; 119; 10; 120]%N); (sl 3 [(SSym (s2l "evstr")); (sl 3 [(SSym (s2l "lit")); (SInt (42))])]); (sl 3 [(SSym (s2l "str")); (SStr [32; 121; 10; 32; 32; 122; 10]%N)])])]));
  (4371, [60; 60; 126; 65; 10; 97; 10; 65]%N, Some (s [(SSym (s2l "str")); (SStr [97; 10]%N)]));
  (4378, [97; 32; 61; 32; 60; 60; 126; 69; 79; 70; 10; 32; 32; 120; 10; 10; 32; 32; 122; 10; 69; 79; 70; 10; 10]%N, Some (s [(SSym (s2l "lasgn")); (SSym (s2l "a")); (s [(SSym (s2l "str")); (SStr [120; 10; 10; 122; 10]%N)])]));
  (4385, [97; 32; 61; 32; 60; 60; 126; 69; 79; 70; 10; 32; 32; 120; 10; 32; 10; 32; 32; 122; 10; 69; 79; 70; 10; 10]%N, Some (s [(SSym (s2l "lasgn")); (SSym (s2l "a")); (s [(SSym (s2l "str")); (SStr [120; 10; 10; 122; 10]%N)])]));
  (4392, [60; 60; 126; 65; 10; 65]%N, Some (s [(SSym (s2l "str")); (SStr (s2l ""))]));
  (4399, (s2l "1_234if true"), Some (s [(SSym (s2l "if")); (s [(SSym (s2l "true"))]); (s [(SSym (s2l "lit")); (SInt (1234))]); SNil]));
  (4406, [100; 101; 102; 32; 120; 32; 97; 58; 44; 32; 98; 58; 10; 101; 110; 100]%N, Some (s [(SSym (s2l "defn")); (SSym (s2l "x")); (s [(SSym (s2l "args")); (s [(SSym (s2l "kwarg")); (SSym (s2l "a"))]); (s [(SSym (s2l "kwarg")); (SSym (s2l "b"))])]); (s [(SSym (s2l "nil"))])]));
  (4425, (s2l "a&.b = 1"), Some (s [(SSym (s2l "safe_attrasgn")); (s [(SSym (s2l "call")); SNil; (SSym (s2l "a"))]); (SSym (s2l "b=")); (s [(SSym (s2l "lit")); (SInt (1))])]));
  (4432, (s2l "a&.B = 1"), Some (s [(SSym (s2l "safe_attrasgn")); (s [(SSym (s2l "call")); SNil; (SSym (s2l "a"))]); (SSym (s2l "B=")); (s [(SSym (s2l "lit")); (SInt (1))])]));
  (4439, (s2l "a&.b"), Some (s [(SSym (s2l "safe_call")); (s [(SSym (s2l "call")); SNil; (SSym (s2l "a"))]); (SSym (s2l "b"))]));
  (4446, [97; 10; 38; 46; 98]%N, Some (sl 2 [(SSym (s2l "safe_call")); (s [(SSym (s2l "call")); SNil; (SSym (s2l "a"))]); (SSym (s2l "b"))]));
  (4453, (s2l "a&.()"), Some (s [(SSym (s2l "safe_call")); (s [(SSym (s2l "call")); SNil; (SSym (s2l "a"))]); (SSym (s2l "call"))]));
  (4460, [97; 38; 46; 98; 10]%N, Some (s [(SSym (s2l "safe_call")); (s [(SSym (s2l "call")); SNil; (SSym (s2l "a"))]); (SSym (s2l "b"))]));
  (4467, (s2l "a&.> 1"), Some (s [(SSym (s2l "safe_call")); (s [(SSym (s2l "call")); SNil; (SSym (s2l "a"))]); (SSym (s2l ">")); (s [(SSym (s2l "lit")); (SInt (1))])]));
  (4474, [99; 32; 61; 32; 97; 38; 46; 98; 10]%N, Some (s [(SSym (s2l "lasgn")); (SSym (s2l "c")); (s [(SSym (s2l "safe_call")); (s [(SSym (s2l "call")); SNil; (SSym (s2l "a"))]); (SSym (s2l "b"))])]));
  (4481, (s2l "a&.b&.c(1)"), Some (s [(SSym (s2l "safe_call")); (s [(SSym (s2l "safe_call")); (s [(SSym (s2l "call")); SNil; (SSym (s2l "a"))]); (SSym (s2l "b"))]); (SSym (s2l "c")); (s [(SSym (s2l "lit")); (SInt (1))])]));
  (4505, [112; 117; 116; 115; 32; 34; 104; 101; 108; 108; 111; 92; 10; 32; 109; 121; 92; 10; 32; 100; 101; 97; 114; 92; 10; 32; 102; 114; 105; 101; 110; 100; 34; 10; 10; 97; 32; 43; 32; 98; 10; 32; 32; 32; 32]%N, Some (s [(SSym (s2l "block")); (s [(SSym (s2l "call")); SNil; (SSym (s2l "puts")); (s [(SSym (s2l "str")); (SStr (s2l "hello my dear friend"))])]); (sl 6 [(SSym (s2l "call")); (sl 6 [(SSym (s2l "call")); SNil; (SSym (s2l "a"))]); (SSym (s2l "+")); (sl 6 [(SSym (s2l "call")); SNil; (SSym (s2l "b"))])])]));
  (4528, (s2l "a = b 1 rescue 2"), Some (s [(SSym (s2l "lasgn")); (SSym (s2l "a")); (s [(SSym (s2l "rescue")); (s [(SSym (s2l "call")); SNil; (SSym (s2l "b")); (s [(SSym (s2l "lit")); (SInt (1))])]); (s [(SSym (s2l "resbody")); (s [(SSym (s2l "array"))]); (s [(SSym (s2l "lit")); (SInt (2))])])])]));
  (4548, (s2l "a.."), Some (s [(SSym (s2l "dot2")); (s [(SSym (s2l "call")); SNil; (SSym (s2l "a"))]); SNil]));
  (4555, (s2l "begin; else 2; end"), None);
  (4561, (s2l "begin 1; else; 2 end"), None);
  (4567, (s2l "a..."), Some (s [(SSym (s2l "dot3")); (s [(SSym (s2l "call")); SNil; (SSym (s2l "a"))]); SNil]));
  (4574, (s2l "%I[#{a} #{b}]"), Some (sl 1 [(SSym (s2l "array")); (s [(SSym (s2l "dsym")); (SStr (s2l "")); (s [(SSym (s2l "evstr")); (s [(SSym (s2l "call")); SNil; (SSym (s2l "a"))])])]); (s [(SSym (s2l "dsym")); (SStr (s2l "")); (s [(SSym (s2l "evstr")); (s [(SSym (s2l "call")); SNil; (SSym (s2l "b"))])])])]));
  (4654, [99; 97; 115; 101; 32; 58; 97; 10; 105; 110; 32; 91; 58; 98; 44; 32; 42; 99; 93; 10; 32; 32; 58; 100; 10; 101; 110; 100]%N, Some (s [(SSym (s2l "case")); (s [(SSym (s2l "lit")); (SSym (s2l "a"))]); (sl 2 [(SSym (s2l "in")); (sl 2 [(SSym (s2l "array_pat")); SNil; (sl 2 [(SSym (s2l "lit")); (SSym (s2l "b"))]); (SSym (s2l "*c"))]); (sl 3 [(SSym (s2l "lit")); (SSym (s2l "d"))])]); SNil]));
  (4698, [99; 97; 115; 101; 32; 58; 97; 10; 105; 110; 32; 123; 32; 98; 58; 32; 91; 72; 97; 115; 104; 44; 32; 42; 93; 32; 125; 10; 32; 32; 58; 99; 10; 101; 110; 100]%N, Some (s [(SSym (s2l "case")); (s [(SSym (s2l "lit")); (SSym (s2l "a"))]); (sl 2 [(SSym (s2l "in")); (sl 2 [(SSym (s2l "hash_pat")); SNil; (sl 2 [(SSym (s2l "lit")); (SSym (s2l "b"))]); (sl 2 [(SSym (s2l "array_pat")); SNil; (sl 2 [(SSym (s2l "const")); (SSym (s2l "Hash"))]); (SSym (s2l "*"))])]); (sl 3 [(SSym (s2l "lit")); (SSym (s2l "c"))])]); SNil]));
  (4713, [99; 97; 115; 101; 32; 58; 97; 10; 105; 110; 32; 58; 98; 44; 32; 42; 95; 32; 116; 104; 101; 110; 32; 110; 105; 108; 10; 101; 110; 100]%N, Some (s [(SSym (s2l "case")); (s [(SSym (s2l "lit")); (SSym (s2l "a"))]); (sl 2 [(SSym (s2l "in")); (sl 2 [(SSym (s2l "array_pat")); SNil; (sl 2 [(SSym (s2l "lit")); (SSym (s2l "b"))]); (SSym (s2l "*_"))]); (sl 2 [(SSym (s2l "nil"))])]); SNil]));
  (4749, [99; 97; 115; 101; 32; 58; 97; 10; 105; 110; 32; 91; 42; 44; 32; 58; 98; 44; 32; 58; 99; 93; 10; 32; 32; 58; 100; 10; 101; 110; 100]%N, Some (s [(SSym (s2l "case")); (s [(SSym (s2l "lit")); (SSym (s2l "a"))]); (sl 2 [(SSym (s2l "in")); (sl 2 [(SSym (s2l "array_pat")); SNil; (SSym (s2l "*")); (sl 2 [(SSym (s2l "lit")); (SSym (s2l "b"))]); (sl 2 [(SSym (s2l "lit")); (SSym (s2l "c"))])]); (sl 3 [(SSym (s2l "lit")); (SSym (s2l "d"))])]); SNil]));
  (4761, [99; 97; 115; 101; 32; 58; 97; 10; 105; 110; 32; 49; 46; 46; 32; 116; 104; 101; 110; 32; 110; 105; 108; 10; 101; 110; 100]%N, Some (s [(SSym (s2l "case")); (s [(SSym (s2l "lit")); (SSym (s2l "a"))]); (sl 2 [(SSym (s2l "in")); (sl 2 [(SSym (s2l "dot2")); (sl 2 [(SSym (s2l "lit")); (SInt (1))]); SNil]); (sl 2 [(SSym (s2l "nil"))])]); SNil]));
  (4890, [99; 97; 115; 101; 32; 65; 114; 114; 97; 121; 10; 105; 110; 32; 67; 108; 97; 115; 115; 10; 32; 32; 58; 98; 10; 101; 110; 100]%N, Some (sl 1 [(SSym (s2l "case")); (s [(SSym (s2l "const")); (SSym (s2l "Array"))]); (sl 2 [(SSym (s2l "in")); (sl 2 [(SSym (s2l "const")); (SSym (s2l "Class"))]); (sl 3 [(SSym (s2l "lit")); (SSym (s2l "b"))])]); SNil]));
  (4900, [99; 97; 115; 101; 32; 65; 114; 114; 97; 121; 10; 105; 110; 32; 67; 108; 97; 115; 115; 10; 32; 32; 58; 98; 10; 101; 108; 115; 101; 10; 32; 32; 58; 99; 10; 101; 110; 100; 10]%N, Some (sl 1 [(SSym (s2l "case")); (s [(SSym (s2l "const")); (SSym (s2l "Array"))]); (sl 2 [(SSym (s2l "in")); (sl 2 [(SSym (s2l "const")); (SSym (s2l "Class"))]); (sl 3 [(SSym (s2l "lit")); (SSym (s2l "b"))])]); (sl 5 [(SSym (s2l "lit")); (SSym (s2l "c"))])]));
  (4910, [99; 97; 115; 101; 32; 58; 97; 10; 105; 110; 32; 123; 32; 98; 58; 32; 39; 99; 39; 44; 32; 100; 58; 32; 34; 101; 34; 32; 125; 32; 116; 104; 101; 110; 10; 32; 32; 58; 102; 10; 101; 110; 100; 10]%N, Some (s [(SSym (s2l "case")); (s [(SSym (s2l "lit")); (SSym (s2l "a"))]); (sl 2 [(SSym (s2l "in")); (sl 2 [(SSym (s2l "hash_pat")); SNil; (sl 2 [(SSym (s2l "lit")); (SSym (s2l "b"))]); (sl 2 [(SSym (s2l "str")); (SStr (s2l "c"))]); (sl 2 [(SSym (s2l "lit")); (SSym (s2l "d"))]); (sl 2 [(SSym (s2l "str")); (SStr (s2l "e"))])]); (sl 3 [(SSym (s2l "lit")); (SSym (s2l "f"))])]); SNil]));
  (4925, [99; 97; 115; 101; 32; 58; 97; 10; 105; 110; 32; 123; 32; 98; 58; 32; 73; 110; 116; 101; 103; 101; 114; 32; 61; 62; 32; 120; 44; 32; 100; 58; 32; 34; 101; 34; 44; 32; 102; 58; 32; 125; 32; 116; 104; 101; 110; 10; 32; 32; 58; 103; 10; 101; 110; 100]%N, Some (s [(SSym (s2l "case")); (s [(SSym (s2l "lit")); (SSym (s2l "a"))]); (sl 2 [(SSym (s2l "in")); (sl 2 [(SSym (s2l "hash_pat")); SNil; (sl 2 [(SSym (s2l "lit")); (SSym (s2l "b"))]); (sl 2 [(SSym (s2l "lasgn")); (SSym (s2l "x")); (sl 2 [(SSym (s2l "const")); (SSym (s2l "Integer"))])]); (sl 2 [(SSym (s2l "lit")); (SSym (s2l "d"))]); (sl 2 [(SSym (s2l "str")); (SStr (s2l "e"))]); (sl 2 [(SSym (s2l "lit")); (SSym (s2l "f"))]); SNil]); (sl 3 [(SSym (s2l "lit")); (SSym (s2l "g"))])]); SNil]));
  (4983, [99; 97; 115; 101; 32; 58; 97; 10; 105; 110; 32; 42; 42; 114; 101; 115; 116; 32; 116; 104; 101; 110; 32; 58; 100; 10; 101; 110; 100]%N, Some (s [(SSym (s2l "case")); (s [(SSym (s2l "lit")); (SSym (s2l "a"))]); (sl 2 [(SSym (s2l "in")); (sl 2 [(SSym (s2l "hash_pat")); SNil; (sl 2 [(SSym (s2l "kwrest")); (SSym (s2l "**rest"))])]); (sl 2 [(SSym (s2l "lit")); (SSym (s2l "d"))])]); SNil]));
  (5027, [99; 97; 115; 101; 32; 58; 97; 10; 105; 110; 32; 66; 32; 124; 32; 67; 10; 32; 32; 58; 100; 10; 101; 110; 100; 10]%N, Some (s [(SSym (s2l "case")); (s [(SSym (s2l "lit")); (SSym (s2l "a"))]); (sl 2 [(SSym (s2l "in")); (sl 2 [(SSym (s2l "or")); (sl 2 [(SSym (s2l "const")); (SSym (s2l "B"))]); (sl 2 [(SSym (s2l "const")); (SSym (s2l "C"))])]); (sl 3 [(SSym (s2l "lit")); (SSym (s2l "d"))])]); SNil]));
  (5084, [99; 97; 115; 101; 32; 91; 48; 44; 32; 49; 44; 32; 50; 93; 10; 105; 110; 32; 91; 48; 44; 32; 49; 44; 93; 10; 32; 32; 116; 114; 117; 101; 10; 101; 110; 100; 10]%N, Some (s [(SSym (s2l "case")); (s [(SSym (s2l "array")); (s [(SSym (s2l "lit")); (SInt (0))]); (s [(SSym (s2l "lit")); (SInt (1))]); (s [(SSym (s2l "lit")); (SInt (2))])]); (sl 2 [(SSym (s2l "in")); (sl 2 [(SSym (s2l "array_pat")); SNil; (sl 2 [(SSym (s2l "lit")); (SInt (0))]); (sl 2 [(SSym (s2l "lit")); (SInt (1))]); (SSym (s2l "*"))]); (sl 3 [(SSym (s2l "true"))])]); SNil]));
  (5108, [99; 97; 115; 101; 32; 123; 97; 58; 32; 48; 125; 10; 105; 110; 32; 123; 97; 58; 44; 32; 42; 42; 114; 101; 115; 116; 125; 10; 32; 32; 91; 97; 44; 32; 114; 101; 115; 116; 93; 10; 101; 110; 100; 10]%N, Some (s [(SSym (s2l "case")); (s [(SSym (s2l "hash")); (s [(SSym (s2l "lit")); (SSym (s2l "a"))]); (s [(SSym (s2l "lit")); (SInt (0))])]); (sl 2 [(SSym (s2l "in")); (sl 2 [(SSym (s2l "hash_pat")); SNil; (sl 2 [(SSym (s2l "lit")); (SSym (s2l "a"))]); SNil; (sl 2 [(SSym (s2l "kwrest")); (SSym (s2l "**rest"))])]); (sl 3 [(SSym (s2l "array")); (sl 3 [(SSym (s2l "lvar")); (SSym (s2l "a"))]); (sl 3 [(SSym (s2l "lvar")); (SSym (s2l "rest"))])])]); SNil]));
  (5130, [99; 97; 115; 101; 32; 123; 97; 58; 32; 48; 125; 10; 105; 110; 32; 123; 97; 58; 44; 32; 42; 42; 125; 10; 32; 32; 91; 97; 93; 10; 101; 110; 100; 10]%N, Some (s [(SSym (s2l "case")); (s [(SSym (s2l "hash")); (s [(SSym (s2l "lit")); (SSym (s2l "a"))]); (s [(SSym (s2l "lit")); (SInt (0))])]); (sl 2 [(SSym (s2l "in")); (sl 2 [(SSym (s2l "hash_pat")); SNil; (sl 2 [(SSym (s2l "lit")); (SSym (s2l "a"))]); SNil; (sl 2 [(SSym (s2l "kwrest")); (SSym (s2l "**"))])]); (sl 3 [(SSym (s2l "array")); (sl 3 [(SSym (s2l "lvar")); (SSym (s2l "a"))])])]); SNil]));
  (5170, [99; 97; 115; 101; 32; 123; 97; 58; 32; 49; 125; 10; 105; 110; 32; 123; 97; 58; 32; 49; 44; 32; 42; 42; 110; 105; 108; 125; 10; 32; 32; 116; 114; 117; 101; 10; 101; 110; 100; 10]%N, Some (s [(SSym (s2l "case")); (s [(SSym (s2l "hash")); (s [(SSym (s2l "lit")); (SSym (s2l "a"))]); (s [(SSym (s2l "lit")); (SInt (1))])]); (sl 2 [(SSym (s2l "in")); (sl 2 [(SSym (s2l "hash_pat")); SNil; (sl 2 [(SSym (s2l "lit")); (SSym (s2l "a"))]); (sl 2 [(SSym (s2l "lit")); (SInt (1))]); (sl 2 [(SSym (s2l "kwrest")); (SSym (s2l "**nil"))])]); (sl 3 [(SSym (s2l "true"))])]); SNil]));
  (5224, (s2l "f { |**kwargs| kwargs }"), Some (s [(SSym (s2l "iter")); (s [(SSym (s2l "call")); SNil; (SSym (s2l "f"))]); (s [(SSym (s2l "args")); (SSym (s2l "**kwargs"))]); (s [(SSym (s2l "lvar")); (SSym (s2l "kwargs"))])]));
  (5234, (s2l "f { |**nil| }"), Some (s [(SSym (s2l "iter")); (s [(SSym (s2l "call")); SNil; (SSym (s2l "f"))]); (s [(SSym (s2l "args")); (SSym (s2l "**nil"))])]));
  (5243, (s2l "def a(...); b(...); end"), Some (s [(SSym (s2l "defn")); (SSym (s2l "a")); (s [(SSym (s2l "args")); (s [(SSym (s2l "forward_args"))])]); (s [(SSym (s2l "call")); SNil; (SSym (s2l "b")); (s [(SSym (s2l "forward_args"))])])]));
  (5251, (s2l "def a(x, ...); b(x, ...); end"), Some (s [(SSym (s2l "defn")); (SSym (s2l "a")); (s [(SSym (s2l "args")); (SSym (s2l "x")); (s [(SSym (s2l "forward_args"))])]); (s [(SSym (s2l "call")); SNil; (SSym (s2l "b")); (s [(SSym (s2l "lvar")); (SSym (s2l "x"))]); (s [(SSym (s2l "forward_args"))])])]));
  (5259, (s2l "def a(x, y, z, ...); b(:get, z, ...); end"), Some (s [(SSym (s2l "defn")); (SSym (s2l "a")); (s [(SSym (s2l "args")); (SSym (s2l "x")); (SSym (s2l "y")); (SSym (s2l "z")); (s [(SSym (s2l "forward_args"))])]); (s [(SSym (s2l "call")); SNil; (SSym (s2l "b")); (s [(SSym (s2l "lit")); (SSym (s2l "get"))]); (s [(SSym (s2l "lvar")); (SSym (s2l "z"))]); (s [(SSym (s2l "forward_args"))])])]));
  (5268, (s2l "def x(**nil); end"), Some (s [(SSym (s2l "defn")); (SSym (s2l "x")); (s [(SSym (s2l "args")); (SSym (s2l "**nil"))]); (s [(SSym (s2l "nil"))])]));
  (5289, (s2l "b(...)"), None);
  (5295, (s2l "b(x, ...)"), None);
  (5301, (s2l "a, b = f rescue 42"), Some (s [(SSym (s2l "masgn")); (s [(SSym (s2l "array")); (s [(SSym (s2l "lasgn")); (SSym (s2l "a"))]); (s [(SSym (s2l "lasgn")); (SSym (s2l "b"))])]); (s [(SSym (s2l "to_ary")); (s [(SSym (s2l "rescue")); (s [(SSym (s2l "call")); SNil; (SSym (s2l "f"))]); (s [(SSym (s2l "resbody")); (s [(SSym (s2l "array"))]); (s [(SSym (s2l "lit")); (SInt (42))])])])])]));
  (5366, (s2l "def exec(cmd) = system(cmd)"), Some (s [(SSym (s2l "defn")); (SSym (s2l "exec")); (s [(SSym (s2l "args")); (SSym (s2l "cmd"))]); (s [(SSym (s2l "call")); SNil; (SSym (s2l "system")); (s [(SSym (s2l "lvar")); (SSym (s2l "cmd"))])])]));
  (5374, (s2l "def exec() = system"), Some (s [(SSym (s2l "defn")); (SSym (s2l "exec")); (s [(SSym (s2l "args"))]); (s [(SSym (s2l "call")); SNil; (SSym (s2l "system"))])]));
  (5382, (s2l "def exec = system"), Some (s [(SSym (s2l "defn")); (SSym (s2l "exec")); (s [(SSym (s2l "args"))]); (s [(SSym (s2l "call")); SNil; (SSym (s2l "system"))])]));
  (5390, [100; 101; 102; 32; 101; 120; 101; 99; 40; 99; 109; 100; 41; 10; 32; 32; 115; 121; 115; 116; 101; 109; 40; 99; 109; 100; 41; 10; 114; 101; 115; 99; 117; 101; 10; 32; 32; 110; 105; 108; 10; 101; 110; 100; 10]%N, Some (s [(SSym (s2l "defn")); (SSym (s2l "exec")); (s [(SSym (s2l "args")); (SSym (s2l "cmd"))]); (s [(SSym (s2l "rescue")); (s [(SSym (s2l "call")); SNil; (SSym (s2l "system")); (s [(SSym (s2l "lvar")); (SSym (s2l "cmd"))])]); (s [(SSym (s2l "resbody")); (s [(SSym (s2l "array"))]); (s [(SSym (s2l "nil"))])])])]));
  (5390, [100; 101; 102; 32; 101; 120; 101; 99; 40; 99; 109; 100; 41; 10; 32; 32; 115; 121; 115; 116; 101; 109; 40; 99; 109; 100; 41; 32; 114; 101; 115; 99; 117; 101; 32; 110; 105; 108; 10; 101; 110; 100; 10]%N, Some (s [(SSym (s2l "defn")); (SSym (s2l "exec")); (s [(SSym (s2l "args")); (SSym (s2l "cmd"))]); (s [(SSym (s2l "rescue")); (s [(SSym (s2l "call")); SNil; (SSym (s2l "system")); (s [(SSym (s2l "lvar")); (SSym (s2l "cmd"))])]); (s [(SSym (s2l "resbody")); (s [(SSym (s2l "array"))]); (s [(SSym (s2l "nil"))])])])]));
  (5390, (s2l "def exec(cmd) = system(cmd) rescue nil"), Some (s [(SSym (s2l "defn")); (SSym (s2l "exec")); (s [(SSym (s2l "args")); (SSym (s2l "cmd"))]); (s [(SSym (s2l "rescue")); (s [(SSym (s2l "call")); SNil; (SSym (s2l "system")); (s [(SSym (s2l "lvar")); (SSym (s2l "cmd"))])]); (s [(SSym (s2l "resbody")); (s [(SSym (s2l "array"))]); (s [(SSym (s2l "nil"))])])])]));
  (5416, (s2l "def self.exec(cmd) = system(cmd)"), Some (s [(SSym (s2l "defs")); (s [(SSym (s2l "self"))]); (SSym (s2l "exec")); (s [(SSym (s2l "args")); (SSym (s2l "cmd"))]); (s [(SSym (s2l "call")); SNil; (SSym (s2l "system")); (s [(SSym (s2l "lvar")); (SSym (s2l "cmd"))])])]));
  (5424, [100; 101; 102; 32; 115; 101; 108; 102; 46; 101; 120; 101; 99; 40; 99; 109; 100; 41; 10; 32; 32; 115; 121; 115; 116; 101; 109; 40; 99; 109; 100; 41; 10; 114; 101; 115; 99; 117; 101; 10; 32; 32; 110; 105; 108; 10; 101; 110; 100; 10]%N, Some (s [(SSym (s2l "defs")); (s [(SSym (s2l "self"))]); (SSym (s2l "exec")); (s [(SSym (s2l "args")); (SSym (s2l "cmd"))]); (s [(SSym (s2l "rescue")); (s [(SSym (s2l "call")); SNil; (SSym (s2l "system")); (s [(SSym (s2l "lvar")); (SSym (s2l "cmd"))])]); (s [(SSym (s2l "resbody")); (s [(SSym (s2l "array"))]); (s [(SSym (s2l "nil"))])])])]));
  (5424, [100; 101; 102; 32; 115; 101; 108; 102; 46; 101; 120; 101; 99; 40; 99; 109; 100; 41; 10; 32; 32; 115; 121; 115; 116; 101; 109; 40; 99; 109; 100; 41; 32; 114; 101; 115; 99; 117; 101; 32; 110; 105; 108; 10; 101; 110; 100; 10]%N, Some (s [(SSym (s2l "defs")); (s [(SSym (s2l "self"))]); (SSym (s2l "exec")); (s [(SSym (s2l "args")); (SSym (s2l "cmd"))]); (s [(SSym (s2l "rescue")); (s [(SSym (s2l "call")); SNil; (SSym (s2l "system")); (s [(SSym (s2l "lvar")); (SSym (s2l "cmd"))])]); (s [(SSym (s2l "resbody")); (s [(SSym (s2l "array"))]); (s [(SSym (s2l "nil"))])])])]));
  (5424, (s2l "def self.exec(cmd) = system(cmd) rescue nil"), Some (s [(SSym (s2l "defs")); (s [(SSym (s2l "self"))]); (SSym (s2l "exec")); (s [(SSym (s2l "args")); (SSym (s2l "cmd"))]); (s [(SSym (s2l "rescue")); (s [(SSym (s2l "call")); SNil; (SSym (s2l "system")); (s [(SSym (s2l "lvar")); (SSym (s2l "cmd"))])]); (s [(SSym (s2l "resbody")); (s [(SSym (s2l "array"))]); (s [(SSym (s2l "nil"))])])])]));
  (5448, [99; 108; 97; 115; 115; 32; 88; 10; 32; 32; 100; 101; 102; 32; 120; 61; 40; 111; 41; 32; 61; 32; 52; 50; 10; 101; 110; 100]%N, None);
  (5448, [99; 108; 97; 115; 115; 32; 88; 10; 32; 32; 100; 101; 102; 32; 91; 93; 61; 40; 107; 44; 32; 118; 41; 32; 61; 32; 52; 50; 10; 101; 110; 100]%N, None);
  (5458, [99; 108; 97; 115; 115; 32; 88; 10; 32; 32; 100; 101; 102; 32; 115; 101; 108; 102; 46; 120; 61; 40; 111; 41; 32; 61; 32; 52; 50; 10; 101; 110; 100]%N, None);
  (5458, [99; 108; 97; 115; 115; 32; 88; 10; 32; 32; 100; 101; 102; 32; 115; 101; 108; 102; 46; 91; 93; 61; 40; 107; 44; 32; 118; 41; 32; 61; 32; 52; 50; 10; 101; 110; 100]%N, None);
  (5468, [99; 108; 97; 115; 115; 32; 88; 10; 32; 32; 100; 101; 102; 32; 61; 61; 40; 111; 41; 32; 61; 32; 52; 50; 10; 101; 110; 100]%N, Some (sl 1 [(SSym (s2l "class")); (SSym (s2l "X")); SNil; (sl 2 [(SSym (s2l "defn")); (SSym (s2l "==")); (sl 2 [(SSym (s2l "args")); (SSym (s2l "o"))]); (sl 2 [(SSym (s2l "lit")); (SInt (42))])])]));
  (5478, [99; 108; 97; 115; 115; 32; 88; 10; 32; 32; 100; 101; 102; 32; 115; 101; 108; 102; 46; 61; 61; 40; 111; 41; 32; 61; 32; 52; 50; 10; 101; 110; 100]%N, Some (sl 1 [(SSym (s2l "class")); (SSym (s2l "X")); SNil; (sl 2 [(SSym (s2l "defs")); (sl 2 [(SSym (s2l "self"))]); (SSym (s2l "==")); (sl 2 [(SSym (s2l "args")); (SSym (s2l "o"))]); (sl 2 [(SSym (s2l "lit")); (SInt (42))])])]))].
Example ruby_parser_2_passes : forallb passes ruby_parser_2 = true.
Proof. vm_compute. reflexivity. Qed.


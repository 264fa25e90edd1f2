(** * TestsLexer: fidelity tests of the lexer model

    Every expectation below is transcribed (mechanically, with the loops
    unrolled) from /repo/test/lexer_test.rb, which the project runs against the
    real code.  These are tests of the model, not proofs of properties. *)
From Coq Require Import Strings.String NArith ZArith Bool List.
From Verif Require Import Base Token LexModel.
Import ListNotations.
Open Scope N_scope.

Inductive litv := LNone | LStr (s : str) | LInt (z : Z) | LFloat.

(** /repo/ext/natalie_parser/natalie_parser.cpp 56-111: [token_to_ruby]. *)
Definition view (t : token) : str * litv :=
  (match type_value (ty t) with Some v => v | None => s2l "INVALID" end,
   match ty t with
   | T_Bignum | T_Doc | T_String | T_BackRef | T_BareName | T_ClassVariable | T_Constant
   | T_GlobalVariable | T_InstanceVariable | T_OperatorName | T_Symbol | T_SymbolKey => LStr (literal_or_blank t)
   | T_Fixnum | T_NthRef => LInt (fix_ t)
   | T_Float => LFloat
   | T_InterpolatedRegexpEnd => match lit t with Some o => LStr o | None => LNone end
   | _ => LNone
   end).

Definition view_all (s : str) : option (list (str * litv)) :=
  match tokens 400 s with
  | Ok ts => Some (map view (filter (fun t => negb (is_eof (ty t))) ts))
  | _ => None
  end.

Definition litv_eqb (a b : litv) : bool :=
  match a, b with
  | LNone, LNone | LFloat, LFloat => true
  | LStr x, LStr y => str_eqb x y
  | LInt x, LInt y => Z.eqb x y
  | _, _ => false
  end.
Fixpoint views_eqb (a b : list (str * litv)) : bool :=
  match a, b with
  | [], [] => true
  | (t, l) :: a, (u, m) :: b => str_eqb t u && litv_eqb l m && views_eqb a b
  | _, _ => false
  end.
Definition test (p : str * list (str * litv)) : bool :=
  match view_all (fst p) with Some v => views_eqb v (snd p) | None => false end.

Definition lexer_tests : list (str * list (str * litv)) := [
  ((s2l "/foo/i"), [((s2l "dregx"), LNone); ((s2l "string"), LStr (s2l "foo")); ((s2l "dregxend"), LStr (s2l "i"))]);
  ((s2l "/foo/m"), [((s2l "dregx"), LNone); ((s2l "string"), LStr (s2l "foo")); ((s2l "dregxend"), LStr (s2l "m"))]);
  ((s2l "/foo/x"), [((s2l "dregx"), LNone); ((s2l "string"), LStr (s2l "foo")); ((s2l "dregxend"), LStr (s2l "x"))]);
  ((s2l "/foo/o"), [((s2l "dregx"), LNone); ((s2l "string"), LStr (s2l "foo")); ((s2l "dregxend"), LStr (s2l "o"))]);
  ((s2l "/foo/u"), [((s2l "dregx"), LNone); ((s2l "string"), LStr (s2l "foo")); ((s2l "dregxend"), LStr (s2l "u"))]);
  ((s2l "/foo/e"), [((s2l "dregx"), LNone); ((s2l "string"), LStr (s2l "foo")); ((s2l "dregxend"), LStr (s2l "e"))]);
  ((s2l "/foo/s"), [((s2l "dregx"), LNone); ((s2l "string"), LStr (s2l "foo")); ((s2l "dregxend"), LStr (s2l "s"))]);
  ((s2l "/foo/n"), [((s2l "dregx"), LNone); ((s2l "string"), LStr (s2l "foo")); ((s2l "dregxend"), LStr (s2l "n"))]);
  ((s2l "%r~a/b/c~"), [((s2l "dregx"), LNone); ((s2l "string"), LStr (s2l "a/b/c")); ((s2l "dregxend"), LNone)]);
  ((s2l "%r`a/b/c`"), [((s2l "dregx"), LNone); ((s2l "string"), LStr (s2l "a/b/c")); ((s2l "dregxend"), LNone)]);
  ((s2l "%r|a/b/c|"), [((s2l "dregx"), LNone); ((s2l "string"), LStr (s2l "a/b/c")); ((s2l "dregxend"), LNone)]);
  ((s2l "%r!a/b/c!"), [((s2l "dregx"), LNone); ((s2l "string"), LStr (s2l "a/b/c")); ((s2l "dregxend"), LNone)]);
  ((s2l "%r@a/b/c@"), [((s2l "dregx"), LNone); ((s2l "string"), LStr (s2l "a/b/c")); ((s2l "dregxend"), LNone)]);
  ((s2l "%r#a/b/c#"), [((s2l "dregx"), LNone); ((s2l "string"), LStr (s2l "a/b/c")); ((s2l "dregxend"), LNone)]);
  ((s2l "%r$a/b/c$"), [((s2l "dregx"), LNone); ((s2l "string"), LStr (s2l "a/b/c")); ((s2l "dregxend"), LNone)]);
  ((s2l "%r%a/b/c%"), [((s2l "dregx"), LNone); ((s2l "string"), LStr (s2l "a/b/c")); ((s2l "dregxend"), LNone)]);
  ((s2l "%r^a/b/c^"), [((s2l "dregx"), LNone); ((s2l "string"), LStr (s2l "a/b/c")); ((s2l "dregxend"), LNone)]);
  ((s2l "%r&a/b/c&"), [((s2l "dregx"), LNone); ((s2l "string"), LStr (s2l "a/b/c")); ((s2l "dregxend"), LNone)]);
  ((s2l "%r*a/b/c*"), [((s2l "dregx"), LNone); ((s2l "string"), LStr (s2l "a/b/c")); ((s2l "dregxend"), LNone)]);
  ((s2l "%r,a/b/c,"), [((s2l "dregx"), LNone); ((s2l "string"), LStr (s2l "a/b/c")); ((s2l "dregxend"), LNone)]);
  ((s2l "%r.a/b/c."), [((s2l "dregx"), LNone); ((s2l "string"), LStr (s2l "a/b/c")); ((s2l "dregxend"), LNone)]);
  ((s2l "%r?a/b/c?"), [((s2l "dregx"), LNone); ((s2l "string"), LStr (s2l "a/b/c")); ((s2l "dregxend"), LNone)]);
  ((s2l "%r:a/b/c:"), [((s2l "dregx"), LNone); ((s2l "string"), LStr (s2l "a/b/c")); ((s2l "dregxend"), LNone)]);
  ((s2l "%r'a/b/c'"), [((s2l "dregx"), LNone); ((s2l "string"), LStr (s2l "a/b/c")); ((s2l "dregxend"), LNone)]);
  ((s2l "%r""a/b/c"""), [((s2l "dregx"), LNone); ((s2l "string"), LStr (s2l "a/b/c")); ((s2l "dregxend"), LNone)]);
  ((s2l "%r-a/b/c-"), [((s2l "dregx"), LNone); ((s2l "string"), LStr (s2l "a/b/c")); ((s2l "dregxend"), LNone)]);
  ((s2l "%r_a/b/c_"), [((s2l "dregx"), LNone); ((s2l "string"), LStr (s2l "a/b/c")); ((s2l "dregxend"), LNone)]);
  ((s2l "%r+a/b/c+"), [((s2l "dregx"), LNone); ((s2l "string"), LStr (s2l "a/b/c")); ((s2l "dregxend"), LNone)]);
  ((s2l "%r\a/b/c\"), [((s2l "dregx"), LNone); ((s2l "string"), LStr (s2l "a/b/c")); ((s2l "dregxend"), LNone)]);
  ((s2l "%r;a/b/c;"), [((s2l "dregx"), LNone); ((s2l "string"), LStr (s2l "a/b/c")); ((s2l "dregxend"), LNone)]);
  ((s2l "%r=a/b/c="), [((s2l "dregx"), LNone); ((s2l "string"), LStr (s2l "a/b/c")); ((s2l "dregxend"), LNone)]);
  ((s2l "elsif / foo/"), [((s2l "elsif"), LNone); ((s2l "dregx"), LNone); ((s2l "string"), LStr (s2l " foo")); ((s2l "dregxend"), LNone)]);
  ((s2l "if / foo/"), [((s2l "if"), LNone); ((s2l "dregx"), LNone); ((s2l "string"), LStr (s2l " foo")); ((s2l "dregxend"), LNone)]);
  ((s2l "rescue / foo/"), [((s2l "rescue"), LNone); ((s2l "dregx"), LNone); ((s2l "string"), LStr (s2l " foo")); ((s2l "dregxend"), LNone)]);
  ((s2l "return / foo/"), [((s2l "return"), LNone); ((s2l "dregx"), LNone); ((s2l "string"), LStr (s2l " foo")); ((s2l "dregxend"), LNone)]);
  ((s2l "unless / foo/"), [((s2l "unless"), LNone); ((s2l "dregx"), LNone); ((s2l "string"), LStr (s2l " foo")); ((s2l "dregxend"), LNone)]);
  ((s2l "until / foo/"), [((s2l "until"), LNone); ((s2l "dregx"), LNone); ((s2l "string"), LStr (s2l " foo")); ((s2l "dregxend"), LNone)]);
  ((s2l "when / foo/"), [((s2l "when"), LNone); ((s2l "dregx"), LNone); ((s2l "string"), LStr (s2l " foo")); ((s2l "dregxend"), LNone)]);
  ((s2l "while / foo/"), [((s2l "while"), LNone); ((s2l "dregx"), LNone); ((s2l "string"), LStr (s2l " foo")); ((s2l "dregxend"), LNone)]);
  ((s2l "$?"), [((s2l "gvar"), LStr (s2l "$?"))]);
  ((s2l "$!"), [((s2l "gvar"), LStr (s2l "$!"))]);
  ((s2l "$="), [((s2l "gvar"), LStr (s2l "$="))]);
  ((s2l "$~"), [((s2l "gvar"), LStr (s2l "$~"))]);
  ((s2l "$@"), [((s2l "gvar"), LStr (s2l "$@"))]);
  ((s2l "$`"), [((s2l "gvar"), LStr (s2l "$`"))]);
  ((s2l "$'"), [((s2l "gvar"), LStr (s2l "$'"))]);
  ((s2l "$+"), [((s2l "gvar"), LStr (s2l "$+"))]);
  ((s2l "$/"), [((s2l "gvar"), LStr (s2l "$/"))]);
  ((s2l "$\"), [((s2l "gvar"), LStr (s2l "$\"))]);
  ((s2l "$;"), [((s2l "gvar"), LStr (s2l "$;"))]);
  ((s2l "$<"), [((s2l "gvar"), LStr (s2l "$<"))]);
  ((s2l "$>"), [((s2l "gvar"), LStr (s2l "$>"))]);
  ((s2l "$$"), [((s2l "gvar"), LStr (s2l "$$"))]);
  ((s2l "$*"), [((s2l "gvar"), LStr (s2l "$*"))]);
  ((s2l "$."), [((s2l "gvar"), LStr (s2l "$."))]);
  ((s2l "$:"), [((s2l "gvar"), LStr (s2l "$:"))]);
  ((s2l "$"""), [((s2l "gvar"), LStr (s2l "$"""))]);
  ((s2l "$_"), [((s2l "gvar"), LStr (s2l "$_"))]);
  ((s2l "$,"), [((s2l "gvar"), LStr (s2l "$,"))]);
  ((s2l "$-0"), [((s2l "gvar"), LStr (s2l "$-0"))]);
  ((s2l "$-F"), [((s2l "gvar"), LStr (s2l "$-F"))]);
  ((s2l "$-l"), [((s2l "gvar"), LStr (s2l "$-l"))]);
  ((s2l "$-I"), [((s2l "gvar"), LStr (s2l "$-I"))]);
  ((s2l "$-K"), [((s2l "gvar"), LStr (s2l "$-K"))]);
  ((s2l "$-a"), [((s2l "gvar"), LStr (s2l "$-a"))]);
  ((s2l "$-d"), [((s2l "gvar"), LStr (s2l "$-d"))]);
  ((s2l "$-i"), [((s2l "gvar"), LStr (s2l "$-i"))]);
  ((s2l "$-p"), [((s2l "gvar"), LStr (s2l "$-p"))]);
  ((s2l "$-v"), [((s2l "gvar"), LStr (s2l "$-v"))]);
  ((s2l "$-w"), [((s2l "gvar"), LStr (s2l "$-w"))]);
  ((s2l "def self.self"), [((s2l "def"), LNone); ((s2l "self"), LNone); ((s2l "."), LNone); ((s2l "name"), LStr (s2l "self"))]);
  ((s2l "foo.self"), [((s2l "name"), LStr (s2l "foo")); ((s2l "."), LNone); ((s2l "name"), LStr (s2l "self"))]);
  ((s2l "def self.def"), [((s2l "def"), LNone); ((s2l "self"), LNone); ((s2l "."), LNone); ((s2l "name"), LStr (s2l "def"))]);
  ((s2l "foo.def"), [((s2l "name"), LStr (s2l "foo")); ((s2l "."), LNone); ((s2l "name"), LStr (s2l "def"))]);
  ((s2l "def self.while"), [((s2l "def"), LNone); ((s2l "self"), LNone); ((s2l "."), LNone); ((s2l "name"), LStr (s2l "while"))]);
  ((s2l "foo.while"), [((s2l "name"), LStr (s2l "foo")); ((s2l "."), LNone); ((s2l "name"), LStr (s2l "while"))]);
  ((s2l "foo.self.bar"), [((s2l "name"), LStr (s2l "foo")); ((s2l "."), LNone); ((s2l "name"), LStr (s2l "self")); ((s2l "."), LNone); ((s2l "name"), LStr (s2l "bar"))]);
  ((s2l "def self::self"), [((s2l "def"), LNone); ((s2l "self"), LNone); ((s2l "::"), LNone); ((s2l "name"), LStr (s2l "self"))]);
  ((s2l "foo::self"), [((s2l "name"), LStr (s2l "foo")); ((s2l "::"), LNone); ((s2l "name"), LStr (s2l "self"))]);
  ((s2l "def self::def"), [((s2l "def"), LNone); ((s2l "self"), LNone); ((s2l "::"), LNone); ((s2l "name"), LStr (s2l "def"))]);
  ((s2l "foo::def"), [((s2l "name"), LStr (s2l "foo")); ((s2l "::"), LNone); ((s2l "name"), LStr (s2l "def"))]);
  ((s2l "def self::while"), [((s2l "def"), LNone); ((s2l "self"), LNone); ((s2l "::"), LNone); ((s2l "name"), LStr (s2l "while"))]);
  ((s2l "foo::while"), [((s2l "name"), LStr (s2l "foo")); ((s2l "::"), LNone); ((s2l "name"), LStr (s2l "while"))]);
  ((s2l "foo::self::bar"), [((s2l "name"), LStr (s2l "foo")); ((s2l "::"), LNone); ((s2l "name"), LStr (s2l "self")); ((s2l "::"), LNone); ((s2l "name"), LStr (s2l "bar"))]);
  ((s2l "foo +@bar"), [((s2l "name"), LStr (s2l "foo")); ((s2l "+"), LNone); ((s2l "ivar"), LStr (s2l "@bar"))]);
  ((s2l "foo + @bar"), [((s2l "name"), LStr (s2l "foo")); ((s2l "+"), LNone); ((s2l "ivar"), LStr (s2l "@bar"))]);
  ((s2l "def +@"), [((s2l "def"), LNone); ((s2l "operator"), LStr (s2l "+@"))]);
  ((s2l "def self.+@"), [((s2l "def"), LNone); ((s2l "self"), LNone); ((s2l "."), LNone); ((s2l "operator"), LStr (s2l "+@"))]);
  ((s2l "foo.+@"), [((s2l "name"), LStr (s2l "foo")); ((s2l "."), LNone); ((s2l "operator"), LStr (s2l "+@"))]);
  ((s2l "foo.+@bar"), [((s2l "name"), LStr (s2l "foo")); ((s2l "."), LNone); ((s2l "operator"), LStr (s2l "+@")); ((s2l "name"), LStr (s2l "bar"))]);
  ((s2l "foo.+ @bar"), [((s2l "name"), LStr (s2l "foo")); ((s2l "."), LNone); ((s2l "+"), LNone); ((s2l "ivar"), LStr (s2l "@bar"))]);
  ((s2l "foo -@bar"), [((s2l "name"), LStr (s2l "foo")); ((s2l "-"), LNone); ((s2l "ivar"), LStr (s2l "@bar"))]);
  ((s2l "foo - @bar"), [((s2l "name"), LStr (s2l "foo")); ((s2l "-"), LNone); ((s2l "ivar"), LStr (s2l "@bar"))]);
  ((s2l "def -@"), [((s2l "def"), LNone); ((s2l "operator"), LStr (s2l "-@"))]);
  ((s2l "def self.-@"), [((s2l "def"), LNone); ((s2l "self"), LNone); ((s2l "."), LNone); ((s2l "operator"), LStr (s2l "-@"))]);
  ((s2l "foo.-@"), [((s2l "name"), LStr (s2l "foo")); ((s2l "."), LNone); ((s2l "operator"), LStr (s2l "-@"))]);
  ((s2l "foo.-@bar"), [((s2l "name"), LStr (s2l "foo")); ((s2l "."), LNone); ((s2l "operator"), LStr (s2l "-@")); ((s2l "name"), LStr (s2l "bar"))]);
  ((s2l "foo.- @bar"), [((s2l "name"), LStr (s2l "foo")); ((s2l "."), LNone); ((s2l "-"), LNone); ((s2l "ivar"), LStr (s2l "@bar"))]);
  ((s2l "foo ~@bar"), [((s2l "name"), LStr (s2l "foo")); ((s2l "~"), LNone); ((s2l "ivar"), LStr (s2l "@bar"))]);
  ((s2l "foo ~ @bar"), [((s2l "name"), LStr (s2l "foo")); ((s2l "~"), LNone); ((s2l "ivar"), LStr (s2l "@bar"))]);
  ((s2l "def ~@"), [((s2l "def"), LNone); ((s2l "operator"), LStr (s2l "~@"))]);
  ((s2l "def self.~@"), [((s2l "def"), LNone); ((s2l "self"), LNone); ((s2l "."), LNone); ((s2l "operator"), LStr (s2l "~@"))]);
  ((s2l "foo.~@"), [((s2l "name"), LStr (s2l "foo")); ((s2l "."), LNone); ((s2l "operator"), LStr (s2l "~@"))]);
  ((s2l "foo.~@bar"), [((s2l "name"), LStr (s2l "foo")); ((s2l "."), LNone); ((s2l "operator"), LStr (s2l "~@")); ((s2l "name"), LStr (s2l "bar"))]);
  ((s2l "foo.~ @bar"), [((s2l "name"), LStr (s2l "foo")); ((s2l "."), LNone); ((s2l "~"), LNone); ((s2l "ivar"), LStr (s2l "@bar"))]);
  ((s2l "foo !@bar"), [((s2l "name"), LStr (s2l "foo")); ((s2l "!"), LNone); ((s2l "ivar"), LStr (s2l "@bar"))]);
  ((s2l "foo ! @bar"), [((s2l "name"), LStr (s2l "foo")); ((s2l "!"), LNone); ((s2l "ivar"), LStr (s2l "@bar"))]);
  ((s2l "def !@"), [((s2l "def"), LNone); ((s2l "operator"), LStr (s2l "!@"))]);
  ((s2l "def self.!@"), [((s2l "def"), LNone); ((s2l "self"), LNone); ((s2l "."), LNone); ((s2l "operator"), LStr (s2l "!@"))]);
  ((s2l "foo.!@"), [((s2l "name"), LStr (s2l "foo")); ((s2l "."), LNone); ((s2l "operator"), LStr (s2l "!@"))]);
  ((s2l "foo.!@bar"), [((s2l "name"), LStr (s2l "foo")); ((s2l "."), LNone); ((s2l "operator"), LStr (s2l "!@")); ((s2l "name"), LStr (s2l "bar"))]);
  ((s2l "foo.! @bar"), [((s2l "name"), LStr (s2l "foo")); ((s2l "."), LNone); ((s2l "!"), LNone); ((s2l "ivar"), LStr (s2l "@bar"))]);
  ((s2l "alias +@ foo"), [((s2l "alias"), LNone); ((s2l "operator"), LStr (s2l "+@")); ((s2l "name"), LStr (s2l "foo"))]);
  ((s2l "alias foo +@"), [((s2l "alias"), LNone); ((s2l "name"), LStr (s2l "foo")); ((s2l "operator"), LStr (s2l "+@"))]);
  ((s2l "alias foo= +@"), [((s2l "alias"), LNone); ((s2l "name"), LStr (s2l "foo=")); ((s2l "operator"), LStr (s2l "+@"))]);
  ((s2l "undef +@"), [((s2l "undef"), LNone); ((s2l "operator"), LStr (s2l "+@"))]);
  ((s2l "alias -@ foo"), [((s2l "alias"), LNone); ((s2l "operator"), LStr (s2l "-@")); ((s2l "name"), LStr (s2l "foo"))]);
  ((s2l "alias foo -@"), [((s2l "alias"), LNone); ((s2l "name"), LStr (s2l "foo")); ((s2l "operator"), LStr (s2l "-@"))]);
  ((s2l "alias foo= -@"), [((s2l "alias"), LNone); ((s2l "name"), LStr (s2l "foo=")); ((s2l "operator"), LStr (s2l "-@"))]);
  ((s2l "undef -@"), [((s2l "undef"), LNone); ((s2l "operator"), LStr (s2l "-@"))]);
  ((s2l "alias ~@ foo"), [((s2l "alias"), LNone); ((s2l "operator"), LStr (s2l "~@")); ((s2l "name"), LStr (s2l "foo"))]);
  ((s2l "alias foo ~@"), [((s2l "alias"), LNone); ((s2l "name"), LStr (s2l "foo")); ((s2l "operator"), LStr (s2l "~@"))]);
  ((s2l "alias foo= ~@"), [((s2l "alias"), LNone); ((s2l "name"), LStr (s2l "foo=")); ((s2l "operator"), LStr (s2l "~@"))]);
  ((s2l "undef ~@"), [((s2l "undef"), LNone); ((s2l "operator"), LStr (s2l "~@"))]);
  ((s2l "alias !@ foo"), [((s2l "alias"), LNone); ((s2l "operator"), LStr (s2l "!@")); ((s2l "name"), LStr (s2l "foo"))]);
  ((s2l "alias foo !@"), [((s2l "alias"), LNone); ((s2l "name"), LStr (s2l "foo")); ((s2l "operator"), LStr (s2l "!@"))]);
  ((s2l "alias foo= !@"), [((s2l "alias"), LNone); ((s2l "name"), LStr (s2l "foo=")); ((s2l "operator"), LStr (s2l "!@"))]);
  ((s2l "undef !@"), [((s2l "undef"), LNone); ((s2l "operator"), LStr (s2l "!@"))]);
  ((s2l "alias ` foo"), [((s2l "alias"), LNone); ((s2l "operator"), LStr (s2l "`")); ((s2l "name"), LStr (s2l "foo"))]);
  ((s2l "alias foo `"), [((s2l "alias"), LNone); ((s2l "name"), LStr (s2l "foo")); ((s2l "operator"), LStr (s2l "`"))]);
  ((s2l "alias foo= `"), [((s2l "alias"), LNone); ((s2l "name"), LStr (s2l "foo=")); ((s2l "operator"), LStr (s2l "`"))]);
  ((s2l "undef `"), [((s2l "undef"), LNone); ((s2l "operator"), LStr (s2l "`"))]);
  ((s2l "alias & foo"), [((s2l "alias"), LNone); ((s2l "&"), LNone); ((s2l "name"), LStr (s2l "foo"))]);
  ((s2l "alias foo &"), [((s2l "alias"), LNone); ((s2l "name"), LStr (s2l "foo")); ((s2l "&"), LNone)]);
  ((s2l "alias foo= &"), [((s2l "alias"), LNone); ((s2l "name"), LStr (s2l "foo=")); ((s2l "&"), LNone)]);
  ((s2l "undef &"), [((s2l "undef"), LNone); ((s2l "&"), LNone)]);
  ((s2l "alias ^ foo"), [((s2l "alias"), LNone); ((s2l "^"), LNone); ((s2l "name"), LStr (s2l "foo"))]);
  ((s2l "alias foo ^"), [((s2l "alias"), LNone); ((s2l "name"), LStr (s2l "foo")); ((s2l "^"), LNone)]);
  ((s2l "alias foo= ^"), [((s2l "alias"), LNone); ((s2l "name"), LStr (s2l "foo=")); ((s2l "^"), LNone)]);
  ((s2l "undef ^"), [((s2l "undef"), LNone); ((s2l "^"), LNone)]);
  ((s2l "alias <=> foo"), [((s2l "alias"), LNone); ((s2l "<=>"), LNone); ((s2l "name"), LStr (s2l "foo"))]);
  ((s2l "alias foo <=>"), [((s2l "alias"), LNone); ((s2l "name"), LStr (s2l "foo")); ((s2l "<=>"), LNone)]);
  ((s2l "alias foo= <=>"), [((s2l "alias"), LNone); ((s2l "name"), LStr (s2l "foo=")); ((s2l "<=>"), LNone)]);
  ((s2l "undef <=>"), [((s2l "undef"), LNone); ((s2l "<=>"), LNone)]);
  ((s2l "alias == foo"), [((s2l "alias"), LNone); ((s2l "=="), LNone); ((s2l "name"), LStr (s2l "foo"))]);
  ((s2l "alias foo =="), [((s2l "alias"), LNone); ((s2l "name"), LStr (s2l "foo")); ((s2l "=="), LNone)]);
  ((s2l "alias foo= =="), [((s2l "alias"), LNone); ((s2l "name"), LStr (s2l "foo=")); ((s2l "=="), LNone)]);
  ((s2l "undef =="), [((s2l "undef"), LNone); ((s2l "=="), LNone)]);
  ((s2l "alias === foo"), [((s2l "alias"), LNone); ((s2l "==="), LNone); ((s2l "name"), LStr (s2l "foo"))]);
  ((s2l "alias foo ==="), [((s2l "alias"), LNone); ((s2l "name"), LStr (s2l "foo")); ((s2l "==="), LNone)]);
  ((s2l "alias foo= ==="), [((s2l "alias"), LNone); ((s2l "name"), LStr (s2l "foo=")); ((s2l "==="), LNone)]);
  ((s2l "undef ==="), [((s2l "undef"), LNone); ((s2l "==="), LNone)]);
  ((s2l "alias > foo"), [((s2l "alias"), LNone); ((s2l ">"), LNone); ((s2l "name"), LStr (s2l "foo"))]);
  ((s2l "alias foo >"), [((s2l "alias"), LNone); ((s2l "name"), LStr (s2l "foo")); ((s2l ">"), LNone)]);
  ((s2l "alias foo= >"), [((s2l "alias"), LNone); ((s2l "name"), LStr (s2l "foo=")); ((s2l ">"), LNone)]);
  ((s2l "undef >"), [((s2l "undef"), LNone); ((s2l ">"), LNone)]);
  ((s2l "alias >= foo"), [((s2l "alias"), LNone); ((s2l ">="), LNone); ((s2l "name"), LStr (s2l "foo"))]);
  ((s2l "alias foo >="), [((s2l "alias"), LNone); ((s2l "name"), LStr (s2l "foo")); ((s2l ">="), LNone)]);
  ((s2l "alias foo= >="), [((s2l "alias"), LNone); ((s2l "name"), LStr (s2l "foo=")); ((s2l ">="), LNone)]);
  ((s2l "undef >="), [((s2l "undef"), LNone); ((s2l ">="), LNone)]);
  ((s2l "alias [] foo"), [((s2l "alias"), LNone); ((s2l "[]"), LNone); ((s2l "name"), LStr (s2l "foo"))]);
  ((s2l "alias foo []"), [((s2l "alias"), LNone); ((s2l "name"), LStr (s2l "foo")); ((s2l "[]"), LNone)]);
  ((s2l "alias foo= []"), [((s2l "alias"), LNone); ((s2l "name"), LStr (s2l "foo=")); ((s2l "[]"), LNone)]);
  ((s2l "undef []"), [((s2l "undef"), LNone); ((s2l "[]"), LNone)]);
  ((s2l "alias []= foo"), [((s2l "alias"), LNone); ((s2l "[]="), LNone); ((s2l "name"), LStr (s2l "foo"))]);
  ((s2l "alias foo []="), [((s2l "alias"), LNone); ((s2l "name"), LStr (s2l "foo")); ((s2l "[]="), LNone)]);
  ((s2l "alias foo= []="), [((s2l "alias"), LNone); ((s2l "name"), LStr (s2l "foo=")); ((s2l "[]="), LNone)]);
  ((s2l "undef []="), [((s2l "undef"), LNone); ((s2l "[]="), LNone)]);
  ((s2l "alias << foo"), [((s2l "alias"), LNone); ((s2l "<<"), LNone); ((s2l "name"), LStr (s2l "foo"))]);
  ((s2l "alias foo <<"), [((s2l "alias"), LNone); ((s2l "name"), LStr (s2l "foo")); ((s2l "<<"), LNone)]);
  ((s2l "alias foo= <<"), [((s2l "alias"), LNone); ((s2l "name"), LStr (s2l "foo=")); ((s2l "<<"), LNone)]);
  ((s2l "undef <<"), [((s2l "undef"), LNone); ((s2l "<<"), LNone)]);
  ((s2l "alias < foo"), [((s2l "alias"), LNone); ((s2l "<"), LNone); ((s2l "name"), LStr (s2l "foo"))]);
  ((s2l "alias foo <"), [((s2l "alias"), LNone); ((s2l "name"), LStr (s2l "foo")); ((s2l "<"), LNone)]);
  ((s2l "alias foo= <"), [((s2l "alias"), LNone); ((s2l "name"), LStr (s2l "foo=")); ((s2l "<"), LNone)]);
  ((s2l "undef <"), [((s2l "undef"), LNone); ((s2l "<"), LNone)]);
  ((s2l "alias <= foo"), [((s2l "alias"), LNone); ((s2l "<="), LNone); ((s2l "name"), LStr (s2l "foo"))]);
  ((s2l "alias foo <="), [((s2l "alias"), LNone); ((s2l "name"), LStr (s2l "foo")); ((s2l "<="), LNone)]);
  ((s2l "alias foo= <="), [((s2l "alias"), LNone); ((s2l "name"), LStr (s2l "foo=")); ((s2l "<="), LNone)]);
  ((s2l "undef <="), [((s2l "undef"), LNone); ((s2l "<="), LNone)]);
  ((s2l "alias =~ foo"), [((s2l "alias"), LNone); ((s2l "=~"), LNone); ((s2l "name"), LStr (s2l "foo"))]);
  ((s2l "alias foo =~"), [((s2l "alias"), LNone); ((s2l "name"), LStr (s2l "foo")); ((s2l "=~"), LNone)]);
  ((s2l "alias foo= =~"), [((s2l "alias"), LNone); ((s2l "name"), LStr (s2l "foo=")); ((s2l "=~"), LNone)]);
  ((s2l "undef =~"), [((s2l "undef"), LNone); ((s2l "=~"), LNone)]);
  ((s2l "alias - foo"), [((s2l "alias"), LNone); ((s2l "-"), LNone); ((s2l "name"), LStr (s2l "foo"))]);
  ((s2l "alias foo -"), [((s2l "alias"), LNone); ((s2l "name"), LStr (s2l "foo")); ((s2l "-"), LNone)]);
  ((s2l "alias foo= -"), [((s2l "alias"), LNone); ((s2l "name"), LStr (s2l "foo=")); ((s2l "-"), LNone)]);
  ((s2l "undef -"), [((s2l "undef"), LNone); ((s2l "-"), LNone)]);
  ((s2l "alias != foo"), [((s2l "alias"), LNone); ((s2l "!="), LNone); ((s2l "name"), LStr (s2l "foo"))]);
  ((s2l "alias foo !="), [((s2l "alias"), LNone); ((s2l "name"), LStr (s2l "foo")); ((s2l "!="), LNone)]);
  ((s2l "alias foo= !="), [((s2l "alias"), LNone); ((s2l "name"), LStr (s2l "foo=")); ((s2l "!="), LNone)]);
  ((s2l "undef !="), [((s2l "undef"), LNone); ((s2l "!="), LNone)]);
  ((s2l "alias !~ foo"), [((s2l "alias"), LNone); ((s2l "!~"), LNone); ((s2l "name"), LStr (s2l "foo"))]);
  ((s2l "alias foo !~"), [((s2l "alias"), LNone); ((s2l "name"), LStr (s2l "foo")); ((s2l "!~"), LNone)]);
  ((s2l "alias foo= !~"), [((s2l "alias"), LNone); ((s2l "name"), LStr (s2l "foo=")); ((s2l "!~"), LNone)]);
  ((s2l "undef !~"), [((s2l "undef"), LNone); ((s2l "!~"), LNone)]);
  ((s2l "alias % foo"), [((s2l "alias"), LNone); ((s2l "%"), LNone); ((s2l "name"), LStr (s2l "foo"))]);
  ((s2l "alias foo %"), [((s2l "alias"), LNone); ((s2l "name"), LStr (s2l "foo")); ((s2l "%"), LNone)]);
  ((s2l "alias foo= %"), [((s2l "alias"), LNone); ((s2l "name"), LStr (s2l "foo=")); ((s2l "%"), LNone)]);
  ((s2l "undef %"), [((s2l "undef"), LNone); ((s2l "%"), LNone)]);
  ((s2l "alias | foo"), [((s2l "alias"), LNone); ((s2l "|"), LNone); ((s2l "name"), LStr (s2l "foo"))]);
  ((s2l "alias foo |"), [((s2l "alias"), LNone); ((s2l "name"), LStr (s2l "foo")); ((s2l "|"), LNone)]);
  ((s2l "alias foo= |"), [((s2l "alias"), LNone); ((s2l "name"), LStr (s2l "foo=")); ((s2l "|"), LNone)]);
  ((s2l "undef |"), [((s2l "undef"), LNone); ((s2l "|"), LNone)]);
  ((s2l "alias + foo"), [((s2l "alias"), LNone); ((s2l "+"), LNone); ((s2l "name"), LStr (s2l "foo"))]);
  ((s2l "alias foo +"), [((s2l "alias"), LNone); ((s2l "name"), LStr (s2l "foo")); ((s2l "+"), LNone)]);
  ((s2l "alias foo= +"), [((s2l "alias"), LNone); ((s2l "name"), LStr (s2l "foo=")); ((s2l "+"), LNone)]);
  ((s2l "undef +"), [((s2l "undef"), LNone); ((s2l "+"), LNone)]);
  ((s2l "alias >> foo"), [((s2l "alias"), LNone); ((s2l ">>"), LNone); ((s2l "name"), LStr (s2l "foo"))]);
  ((s2l "alias foo >>"), [((s2l "alias"), LNone); ((s2l "name"), LStr (s2l "foo")); ((s2l ">>"), LNone)]);
  ((s2l "alias foo= >>"), [((s2l "alias"), LNone); ((s2l "name"), LStr (s2l "foo=")); ((s2l ">>"), LNone)]);
  ((s2l "undef >>"), [((s2l "undef"), LNone); ((s2l ">>"), LNone)]);
  ((s2l "alias / foo"), [((s2l "alias"), LNone); ((s2l "/"), LNone); ((s2l "name"), LStr (s2l "foo"))]);
  ((s2l "alias foo /"), [((s2l "alias"), LNone); ((s2l "name"), LStr (s2l "foo")); ((s2l "/"), LNone)]);
  ((s2l "alias foo= /"), [((s2l "alias"), LNone); ((s2l "name"), LStr (s2l "foo=")); ((s2l "/"), LNone)]);
  ((s2l "undef /"), [((s2l "undef"), LNone); ((s2l "/"), LNone)]);
  ((s2l "alias * foo"), [((s2l "alias"), LNone); ((s2l "*"), LNone); ((s2l "name"), LStr (s2l "foo"))]);
  ((s2l "alias foo *"), [((s2l "alias"), LNone); ((s2l "name"), LStr (s2l "foo")); ((s2l "*"), LNone)]);
  ((s2l "alias foo= *"), [((s2l "alias"), LNone); ((s2l "name"), LStr (s2l "foo=")); ((s2l "*"), LNone)]);
  ((s2l "undef *"), [((s2l "undef"), LNone); ((s2l "*"), LNone)]);
  ((s2l "alias ** foo"), [((s2l "alias"), LNone); ((s2l "**"), LNone); ((s2l "name"), LStr (s2l "foo"))]);
  ((s2l "alias foo **"), [((s2l "alias"), LNone); ((s2l "name"), LStr (s2l "foo")); ((s2l "**"), LNone)]);
  ((s2l "alias foo= **"), [((s2l "alias"), LNone); ((s2l "name"), LStr (s2l "foo=")); ((s2l "**"), LNone)]);
  ((s2l "undef **"), [((s2l "undef"), LNone); ((s2l "**"), LNone)]);
  ((s2l "alias ~ foo"), [((s2l "alias"), LNone); ((s2l "~"), LNone); ((s2l "name"), LStr (s2l "foo"))]);
  ((s2l "alias foo ~"), [((s2l "alias"), LNone); ((s2l "name"), LStr (s2l "foo")); ((s2l "~"), LNone)]);
  ((s2l "alias foo= ~"), [((s2l "alias"), LNone); ((s2l "name"), LStr (s2l "foo=")); ((s2l "~"), LNone)]);
  ((s2l "undef ~"), [((s2l "undef"), LNone); ((s2l "~"), LNone)]);
  ((s2l "alias BEGIN foo"), [((s2l "alias"), LNone); ((s2l "constant"), LStr (s2l "BEGIN")); ((s2l "name"), LStr (s2l "foo"))]);
  ((s2l "alias foo BEGIN"), [((s2l "alias"), LNone); ((s2l "name"), LStr (s2l "foo")); ((s2l "constant"), LStr (s2l "BEGIN"))]);
  ((s2l "alias foo= BEGIN"), [((s2l "alias"), LNone); ((s2l "name"), LStr (s2l "foo=")); ((s2l "constant"), LStr (s2l "BEGIN"))]);
  ((s2l "undef BEGIN"), [((s2l "undef"), LNone); ((s2l "constant"), LStr (s2l "BEGIN"))]);
  ((s2l "alias END foo"), [((s2l "alias"), LNone); ((s2l "constant"), LStr (s2l "END")); ((s2l "name"), LStr (s2l "foo"))]);
  ((s2l "alias foo END"), [((s2l "alias"), LNone); ((s2l "name"), LStr (s2l "foo")); ((s2l "constant"), LStr (s2l "END"))]);
  ((s2l "alias foo= END"), [((s2l "alias"), LNone); ((s2l "name"), LStr (s2l "foo=")); ((s2l "constant"), LStr (s2l "END"))]);
  ((s2l "undef END"), [((s2l "undef"), LNone); ((s2l "constant"), LStr (s2l "END"))]);
  ((s2l "alias __ENCODING__ foo"), [((s2l "alias"), LNone); ((s2l "name"), LStr (s2l "__ENCODING__")); ((s2l "name"), LStr (s2l "foo"))]);
  ((s2l "alias foo __ENCODING__"), [((s2l "alias"), LNone); ((s2l "name"), LStr (s2l "foo")); ((s2l "name"), LStr (s2l "__ENCODING__"))]);
  ((s2l "alias foo= __ENCODING__"), [((s2l "alias"), LNone); ((s2l "name"), LStr (s2l "foo=")); ((s2l "name"), LStr (s2l "__ENCODING__"))]);
  ((s2l "undef __ENCODING__"), [((s2l "undef"), LNone); ((s2l "name"), LStr (s2l "__ENCODING__"))]);
  ((s2l "alias __LINE__ foo"), [((s2l "alias"), LNone); ((s2l "name"), LStr (s2l "__LINE__")); ((s2l "name"), LStr (s2l "foo"))]);
  ((s2l "alias foo __LINE__"), [((s2l "alias"), LNone); ((s2l "name"), LStr (s2l "foo")); ((s2l "name"), LStr (s2l "__LINE__"))]);
  ((s2l "alias foo= __LINE__"), [((s2l "alias"), LNone); ((s2l "name"), LStr (s2l "foo=")); ((s2l "name"), LStr (s2l "__LINE__"))]);
  ((s2l "undef __LINE__"), [((s2l "undef"), LNone); ((s2l "name"), LStr (s2l "__LINE__"))]);
  ((s2l "alias __FILE__ foo"), [((s2l "alias"), LNone); ((s2l "name"), LStr (s2l "__FILE__")); ((s2l "name"), LStr (s2l "foo"))]);
  ((s2l "alias foo __FILE__"), [((s2l "alias"), LNone); ((s2l "name"), LStr (s2l "foo")); ((s2l "name"), LStr (s2l "__FILE__"))]);
  ((s2l "alias foo= __FILE__"), [((s2l "alias"), LNone); ((s2l "name"), LStr (s2l "foo=")); ((s2l "name"), LStr (s2l "__FILE__"))]);
  ((s2l "undef __FILE__"), [((s2l "undef"), LNone); ((s2l "name"), LStr (s2l "__FILE__"))]);
  ((s2l "alias alias foo"), [((s2l "alias"), LNone); ((s2l "name"), LStr (s2l "alias")); ((s2l "name"), LStr (s2l "foo"))]);
  ((s2l "alias foo alias"), [((s2l "alias"), LNone); ((s2l "name"), LStr (s2l "foo")); ((s2l "name"), LStr (s2l "alias"))]);
  ((s2l "alias foo= alias"), [((s2l "alias"), LNone); ((s2l "name"), LStr (s2l "foo=")); ((s2l "name"), LStr (s2l "alias"))]);
  ((s2l "undef alias"), [((s2l "undef"), LNone); ((s2l "name"), LStr (s2l "alias"))]);
  ((s2l "alias and foo"), [((s2l "alias"), LNone); ((s2l "name"), LStr (s2l "and")); ((s2l "name"), LStr (s2l "foo"))]);
  ((s2l "alias foo and"), [((s2l "alias"), LNone); ((s2l "name"), LStr (s2l "foo")); ((s2l "name"), LStr (s2l "and"))]);
  ((s2l "alias foo= and"), [((s2l "alias"), LNone); ((s2l "name"), LStr (s2l "foo=")); ((s2l "name"), LStr (s2l "and"))]);
  ((s2l "undef and"), [((s2l "undef"), LNone); ((s2l "name"), LStr (s2l "and"))]);
  ((s2l "alias begin foo"), [((s2l "alias"), LNone); ((s2l "name"), LStr (s2l "begin")); ((s2l "name"), LStr (s2l "foo"))]);
  ((s2l "alias foo begin"), [((s2l "alias"), LNone); ((s2l "name"), LStr (s2l "foo")); ((s2l "name"), LStr (s2l "begin"))]);
  ((s2l "alias foo= begin"), [((s2l "alias"), LNone); ((s2l "name"), LStr (s2l "foo=")); ((s2l "name"), LStr (s2l "begin"))]);
  ((s2l "undef begin"), [((s2l "undef"), LNone); ((s2l "name"), LStr (s2l "begin"))]);
  ((s2l "alias break foo"), [((s2l "alias"), LNone); ((s2l "name"), LStr (s2l "break")); ((s2l "name"), LStr (s2l "foo"))]);
  ((s2l "alias foo break"), [((s2l "alias"), LNone); ((s2l "name"), LStr (s2l "foo")); ((s2l "name"), LStr (s2l "break"))]);
  ((s2l "alias foo= break"), [((s2l "alias"), LNone); ((s2l "name"), LStr (s2l "foo=")); ((s2l "name"), LStr (s2l "break"))]);
  ((s2l "undef break"), [((s2l "undef"), LNone); ((s2l "name"), LStr (s2l "break"))]);
  ((s2l "alias case foo"), [((s2l "alias"), LNone); ((s2l "name"), LStr (s2l "case")); ((s2l "name"), LStr (s2l "foo"))]);
  ((s2l "alias foo case"), [((s2l "alias"), LNone); ((s2l "name"), LStr (s2l "foo")); ((s2l "name"), LStr (s2l "case"))]);
  ((s2l "alias foo= case"), [((s2l "alias"), LNone); ((s2l "name"), LStr (s2l "foo=")); ((s2l "name"), LStr (s2l "case"))]);
  ((s2l "undef case"), [((s2l "undef"), LNone); ((s2l "name"), LStr (s2l "case"))]);
  ((s2l "alias class foo"), [((s2l "alias"), LNone); ((s2l "name"), LStr (s2l "class")); ((s2l "name"), LStr (s2l "foo"))]);
  ((s2l "alias foo class"), [((s2l "alias"), LNone); ((s2l "name"), LStr (s2l "foo")); ((s2l "name"), LStr (s2l "class"))]);
  ((s2l "alias foo= class"), [((s2l "alias"), LNone); ((s2l "name"), LStr (s2l "foo=")); ((s2l "name"), LStr (s2l "class"))]);
  ((s2l "undef class"), [((s2l "undef"), LNone); ((s2l "name"), LStr (s2l "class"))]);
  ((s2l "alias defined? foo"), [((s2l "alias"), LNone); ((s2l "name"), LStr (s2l "defined?")); ((s2l "name"), LStr (s2l "foo"))]);
  ((s2l "alias foo defined?"), [((s2l "alias"), LNone); ((s2l "name"), LStr (s2l "foo")); ((s2l "name"), LStr (s2l "defined?"))]);
  ((s2l "alias foo= defined?"), [((s2l "alias"), LNone); ((s2l "name"), LStr (s2l "foo=")); ((s2l "name"), LStr (s2l "defined?"))]);
  ((s2l "undef defined?"), [((s2l "undef"), LNone); ((s2l "name"), LStr (s2l "defined?"))]);
  ((s2l "alias def foo"), [((s2l "alias"), LNone); ((s2l "name"), LStr (s2l "def")); ((s2l "name"), LStr (s2l "foo"))]);
  ((s2l "alias foo def"), [((s2l "alias"), LNone); ((s2l "name"), LStr (s2l "foo")); ((s2l "name"), LStr (s2l "def"))]);
  ((s2l "alias foo= def"), [((s2l "alias"), LNone); ((s2l "name"), LStr (s2l "foo=")); ((s2l "name"), LStr (s2l "def"))]);
  ((s2l "undef def"), [((s2l "undef"), LNone); ((s2l "name"), LStr (s2l "def"))]);
  ((s2l "alias do foo"), [((s2l "alias"), LNone); ((s2l "name"), LStr (s2l "do")); ((s2l "name"), LStr (s2l "foo"))]);
  ((s2l "alias foo do"), [((s2l "alias"), LNone); ((s2l "name"), LStr (s2l "foo")); ((s2l "name"), LStr (s2l "do"))]);
  ((s2l "alias foo= do"), [((s2l "alias"), LNone); ((s2l "name"), LStr (s2l "foo=")); ((s2l "name"), LStr (s2l "do"))]);
  ((s2l "undef do"), [((s2l "undef"), LNone); ((s2l "name"), LStr (s2l "do"))]);
  ((s2l "alias else foo"), [((s2l "alias"), LNone); ((s2l "name"), LStr (s2l "else")); ((s2l "name"), LStr (s2l "foo"))]);
  ((s2l "alias foo else"), [((s2l "alias"), LNone); ((s2l "name"), LStr (s2l "foo")); ((s2l "name"), LStr (s2l "else"))]);
  ((s2l "alias foo= else"), [((s2l "alias"), LNone); ((s2l "name"), LStr (s2l "foo=")); ((s2l "name"), LStr (s2l "else"))]);
  ((s2l "undef else"), [((s2l "undef"), LNone); ((s2l "name"), LStr (s2l "else"))]);
  ((s2l "alias elsif foo"), [((s2l "alias"), LNone); ((s2l "name"), LStr (s2l "elsif")); ((s2l "name"), LStr (s2l "foo"))]);
  ((s2l "alias foo elsif"), [((s2l "alias"), LNone); ((s2l "name"), LStr (s2l "foo")); ((s2l "name"), LStr (s2l "elsif"))]);
  ((s2l "alias foo= elsif"), [((s2l "alias"), LNone); ((s2l "name"), LStr (s2l "foo=")); ((s2l "name"), LStr (s2l "elsif"))]);
  ((s2l "undef elsif"), [((s2l "undef"), LNone); ((s2l "name"), LStr (s2l "elsif"))]);
  ((s2l "alias end foo"), [((s2l "alias"), LNone); ((s2l "name"), LStr (s2l "end")); ((s2l "name"), LStr (s2l "foo"))]);
  ((s2l "alias foo end"), [((s2l "alias"), LNone); ((s2l "name"), LStr (s2l "foo")); ((s2l "name"), LStr (s2l "end"))]);
  ((s2l "alias foo= end"), [((s2l "alias"), LNone); ((s2l "name"), LStr (s2l "foo=")); ((s2l "name"), LStr (s2l "end"))]);
  ((s2l "undef end"), [((s2l "undef"), LNone); ((s2l "name"), LStr (s2l "end"))]);
  ((s2l "alias ensure foo"), [((s2l "alias"), LNone); ((s2l "name"), LStr (s2l "ensure")); ((s2l "name"), LStr (s2l "foo"))]);
  ((s2l "alias foo ensure"), [((s2l "alias"), LNone); ((s2l "name"), LStr (s2l "foo")); ((s2l "name"), LStr (s2l "ensure"))]);
  ((s2l "alias foo= ensure"), [((s2l "alias"), LNone); ((s2l "name"), LStr (s2l "foo=")); ((s2l "name"), LStr (s2l "ensure"))]);
  ((s2l "undef ensure"), [((s2l "undef"), LNone); ((s2l "name"), LStr (s2l "ensure"))]);
  ((s2l "alias false foo"), [((s2l "alias"), LNone); ((s2l "name"), LStr (s2l "false")); ((s2l "name"), LStr (s2l "foo"))]);
  ((s2l "alias foo false"), [((s2l "alias"), LNone); ((s2l "name"), LStr (s2l "foo")); ((s2l "name"), LStr (s2l "false"))]);
  ((s2l "alias foo= false"), [((s2l "alias"), LNone); ((s2l "name"), LStr (s2l "foo=")); ((s2l "name"), LStr (s2l "false"))]);
  ((s2l "undef false"), [((s2l "undef"), LNone); ((s2l "name"), LStr (s2l "false"))]);
  ((s2l "alias for foo"), [((s2l "alias"), LNone); ((s2l "name"), LStr (s2l "for")); ((s2l "name"), LStr (s2l "foo"))]);
  ((s2l "alias foo for"), [((s2l "alias"), LNone); ((s2l "name"), LStr (s2l "foo")); ((s2l "name"), LStr (s2l "for"))]);
  ((s2l "alias foo= for"), [((s2l "alias"), LNone); ((s2l "name"), LStr (s2l "foo=")); ((s2l "name"), LStr (s2l "for"))]);
  ((s2l "undef for"), [((s2l "undef"), LNone); ((s2l "name"), LStr (s2l "for"))]);
  ((s2l "alias if foo"), [((s2l "alias"), LNone); ((s2l "name"), LStr (s2l "if")); ((s2l "name"), LStr (s2l "foo"))]);
  ((s2l "alias foo if"), [((s2l "alias"), LNone); ((s2l "name"), LStr (s2l "foo")); ((s2l "name"), LStr (s2l "if"))]);
  ((s2l "alias foo= if"), [((s2l "alias"), LNone); ((s2l "name"), LStr (s2l "foo=")); ((s2l "name"), LStr (s2l "if"))]);
  ((s2l "undef if"), [((s2l "undef"), LNone); ((s2l "name"), LStr (s2l "if"))]);
  ((s2l "alias in foo"), [((s2l "alias"), LNone); ((s2l "name"), LStr (s2l "in")); ((s2l "name"), LStr (s2l "foo"))]);
  ((s2l "alias foo in"), [((s2l "alias"), LNone); ((s2l "name"), LStr (s2l "foo")); ((s2l "name"), LStr (s2l "in"))]);
  ((s2l "alias foo= in"), [((s2l "alias"), LNone); ((s2l "name"), LStr (s2l "foo=")); ((s2l "name"), LStr (s2l "in"))]);
  ((s2l "undef in"), [((s2l "undef"), LNone); ((s2l "name"), LStr (s2l "in"))]);
  ((s2l "alias module foo"), [((s2l "alias"), LNone); ((s2l "name"), LStr (s2l "module")); ((s2l "name"), LStr (s2l "foo"))]);
  ((s2l "alias foo module"), [((s2l "alias"), LNone); ((s2l "name"), LStr (s2l "foo")); ((s2l "name"), LStr (s2l "module"))]);
  ((s2l "alias foo= module"), [((s2l "alias"), LNone); ((s2l "name"), LStr (s2l "foo=")); ((s2l "name"), LStr (s2l "module"))]);
  ((s2l "undef module"), [((s2l "undef"), LNone); ((s2l "name"), LStr (s2l "module"))]);
  ((s2l "alias next foo"), [((s2l "alias"), LNone); ((s2l "name"), LStr (s2l "next")); ((s2l "name"), LStr (s2l "foo"))]);
  ((s2l "alias foo next"), [((s2l "alias"), LNone); ((s2l "name"), LStr (s2l "foo")); ((s2l "name"), LStr (s2l "next"))]);
  ((s2l "alias foo= next"), [((s2l "alias"), LNone); ((s2l "name"), LStr (s2l "foo=")); ((s2l "name"), LStr (s2l "next"))]);
  ((s2l "undef next"), [((s2l "undef"), LNone); ((s2l "name"), LStr (s2l "next"))]);
  ((s2l "alias nil foo"), [((s2l "alias"), LNone); ((s2l "name"), LStr (s2l "nil")); ((s2l "name"), LStr (s2l "foo"))]);
  ((s2l "alias foo nil"), [((s2l "alias"), LNone); ((s2l "name"), LStr (s2l "foo")); ((s2l "name"), LStr (s2l "nil"))]);
  ((s2l "alias foo= nil"), [((s2l "alias"), LNone); ((s2l "name"), LStr (s2l "foo=")); ((s2l "name"), LStr (s2l "nil"))]);
  ((s2l "undef nil"), [((s2l "undef"), LNone); ((s2l "name"), LStr (s2l "nil"))]);
  ((s2l "alias not foo"), [((s2l "alias"), LNone); ((s2l "name"), LStr (s2l "not")); ((s2l "name"), LStr (s2l "foo"))]);
  ((s2l "alias foo not"), [((s2l "alias"), LNone); ((s2l "name"), LStr (s2l "foo")); ((s2l "name"), LStr (s2l "not"))]);
  ((s2l "alias foo= not"), [((s2l "alias"), LNone); ((s2l "name"), LStr (s2l "foo=")); ((s2l "name"), LStr (s2l "not"))]);
  ((s2l "undef not"), [((s2l "undef"), LNone); ((s2l "name"), LStr (s2l "not"))]);
  ((s2l "alias or foo"), [((s2l "alias"), LNone); ((s2l "name"), LStr (s2l "or")); ((s2l "name"), LStr (s2l "foo"))]);
  ((s2l "alias foo or"), [((s2l "alias"), LNone); ((s2l "name"), LStr (s2l "foo")); ((s2l "name"), LStr (s2l "or"))]);
  ((s2l "alias foo= or"), [((s2l "alias"), LNone); ((s2l "name"), LStr (s2l "foo=")); ((s2l "name"), LStr (s2l "or"))]);
  ((s2l "undef or"), [((s2l "undef"), LNone); ((s2l "name"), LStr (s2l "or"))]);
  ((s2l "alias redo foo"), [((s2l "alias"), LNone); ((s2l "name"), LStr (s2l "redo")); ((s2l "name"), LStr (s2l "foo"))]);
  ((s2l "alias foo redo"), [((s2l "alias"), LNone); ((s2l "name"), LStr (s2l "foo")); ((s2l "name"), LStr (s2l "redo"))]);
  ((s2l "alias foo= redo"), [((s2l "alias"), LNone); ((s2l "name"), LStr (s2l "foo=")); ((s2l "name"), LStr (s2l "redo"))]);
  ((s2l "undef redo"), [((s2l "undef"), LNone); ((s2l "name"), LStr (s2l "redo"))]);
  ((s2l "alias rescue foo"), [((s2l "alias"), LNone); ((s2l "name"), LStr (s2l "rescue")); ((s2l "name"), LStr (s2l "foo"))]);
  ((s2l "alias foo rescue"), [((s2l "alias"), LNone); ((s2l "name"), LStr (s2l "foo")); ((s2l "name"), LStr (s2l "rescue"))]);
  ((s2l "alias foo= rescue"), [((s2l "alias"), LNone); ((s2l "name"), LStr (s2l "foo=")); ((s2l "name"), LStr (s2l "rescue"))]);
  ((s2l "undef rescue"), [((s2l "undef"), LNone); ((s2l "name"), LStr (s2l "rescue"))]);
  ((s2l "alias retry foo"), [((s2l "alias"), LNone); ((s2l "name"), LStr (s2l "retry")); ((s2l "name"), LStr (s2l "foo"))]);
  ((s2l "alias foo retry"), [((s2l "alias"), LNone); ((s2l "name"), LStr (s2l "foo")); ((s2l "name"), LStr (s2l "retry"))]);
  ((s2l "alias foo= retry"), [((s2l "alias"), LNone); ((s2l "name"), LStr (s2l "foo=")); ((s2l "name"), LStr (s2l "retry"))]);
  ((s2l "undef retry"), [((s2l "undef"), LNone); ((s2l "name"), LStr (s2l "retry"))]);
  ((s2l "alias return foo"), [((s2l "alias"), LNone); ((s2l "name"), LStr (s2l "return")); ((s2l "name"), LStr (s2l "foo"))]);
  ((s2l "alias foo return"), [((s2l "alias"), LNone); ((s2l "name"), LStr (s2l "foo")); ((s2l "name"), LStr (s2l "return"))]);
  ((s2l "alias foo= return"), [((s2l "alias"), LNone); ((s2l "name"), LStr (s2l "foo=")); ((s2l "name"), LStr (s2l "return"))]);
  ((s2l "undef return"), [((s2l "undef"), LNone); ((s2l "name"), LStr (s2l "return"))]);
  ((s2l "alias self foo"), [((s2l "alias"), LNone); ((s2l "name"), LStr (s2l "self")); ((s2l "name"), LStr (s2l "foo"))]);
  ((s2l "alias foo self"), [((s2l "alias"), LNone); ((s2l "name"), LStr (s2l "foo")); ((s2l "name"), LStr (s2l "self"))]);
  ((s2l "alias foo= self"), [((s2l "alias"), LNone); ((s2l "name"), LStr (s2l "foo=")); ((s2l "name"), LStr (s2l "self"))]);
  ((s2l "undef self"), [((s2l "undef"), LNone); ((s2l "name"), LStr (s2l "self"))]);
  ((s2l "alias super foo"), [((s2l "alias"), LNone); ((s2l "name"), LStr (s2l "super")); ((s2l "name"), LStr (s2l "foo"))]);
  ((s2l "alias foo super"), [((s2l "alias"), LNone); ((s2l "name"), LStr (s2l "foo")); ((s2l "name"), LStr (s2l "super"))]);
  ((s2l "alias foo= super"), [((s2l "alias"), LNone); ((s2l "name"), LStr (s2l "foo=")); ((s2l "name"), LStr (s2l "super"))]);
  ((s2l "undef super"), [((s2l "undef"), LNone); ((s2l "name"), LStr (s2l "super"))]);
  ((s2l "alias then foo"), [((s2l "alias"), LNone); ((s2l "name"), LStr (s2l "then")); ((s2l "name"), LStr (s2l "foo"))]);
  ((s2l "alias foo then"), [((s2l "alias"), LNone); ((s2l "name"), LStr (s2l "foo")); ((s2l "name"), LStr (s2l "then"))]);
  ((s2l "alias foo= then"), [((s2l "alias"), LNone); ((s2l "name"), LStr (s2l "foo=")); ((s2l "name"), LStr (s2l "then"))]);
  ((s2l "undef then"), [((s2l "undef"), LNone); ((s2l "name"), LStr (s2l "then"))]);
  ((s2l "alias true foo"), [((s2l "alias"), LNone); ((s2l "name"), LStr (s2l "true")); ((s2l "name"), LStr (s2l "foo"))]);
  ((s2l "alias foo true"), [((s2l "alias"), LNone); ((s2l "name"), LStr (s2l "foo")); ((s2l "name"), LStr (s2l "true"))]);
  ((s2l "alias foo= true"), [((s2l "alias"), LNone); ((s2l "name"), LStr (s2l "foo=")); ((s2l "name"), LStr (s2l "true"))]);
  ((s2l "undef true"), [((s2l "undef"), LNone); ((s2l "name"), LStr (s2l "true"))]);
  ((s2l "alias undef foo"), [((s2l "alias"), LNone); ((s2l "name"), LStr (s2l "undef")); ((s2l "name"), LStr (s2l "foo"))]);
  ((s2l "alias foo undef"), [((s2l "alias"), LNone); ((s2l "name"), LStr (s2l "foo")); ((s2l "name"), LStr (s2l "undef"))]);
  ((s2l "alias foo= undef"), [((s2l "alias"), LNone); ((s2l "name"), LStr (s2l "foo=")); ((s2l "name"), LStr (s2l "undef"))]);
  ((s2l "undef undef"), [((s2l "undef"), LNone); ((s2l "name"), LStr (s2l "undef"))]);
  ((s2l "alias unless foo"), [((s2l "alias"), LNone); ((s2l "name"), LStr (s2l "unless")); ((s2l "name"), LStr (s2l "foo"))]);
  ((s2l "alias foo unless"), [((s2l "alias"), LNone); ((s2l "name"), LStr (s2l "foo")); ((s2l "name"), LStr (s2l "unless"))]);
  ((s2l "alias foo= unless"), [((s2l "alias"), LNone); ((s2l "name"), LStr (s2l "foo=")); ((s2l "name"), LStr (s2l "unless"))]);
  ((s2l "undef unless"), [((s2l "undef"), LNone); ((s2l "name"), LStr (s2l "unless"))]);
  ((s2l "alias until foo"), [((s2l "alias"), LNone); ((s2l "name"), LStr (s2l "until")); ((s2l "name"), LStr (s2l "foo"))]);
  ((s2l "alias foo until"), [((s2l "alias"), LNone); ((s2l "name"), LStr (s2l "foo")); ((s2l "name"), LStr (s2l "until"))]);
  ((s2l "alias foo= until"), [((s2l "alias"), LNone); ((s2l "name"), LStr (s2l "foo=")); ((s2l "name"), LStr (s2l "until"))]);
  ((s2l "undef until"), [((s2l "undef"), LNone); ((s2l "name"), LStr (s2l "until"))]);
  ((s2l "alias when foo"), [((s2l "alias"), LNone); ((s2l "name"), LStr (s2l "when")); ((s2l "name"), LStr (s2l "foo"))]);
  ((s2l "alias foo when"), [((s2l "alias"), LNone); ((s2l "name"), LStr (s2l "foo")); ((s2l "name"), LStr (s2l "when"))]);
  ((s2l "alias foo= when"), [((s2l "alias"), LNone); ((s2l "name"), LStr (s2l "foo=")); ((s2l "name"), LStr (s2l "when"))]);
  ((s2l "undef when"), [((s2l "undef"), LNone); ((s2l "name"), LStr (s2l "when"))]);
  ((s2l "alias while foo"), [((s2l "alias"), LNone); ((s2l "name"), LStr (s2l "while")); ((s2l "name"), LStr (s2l "foo"))]);
  ((s2l "alias foo while"), [((s2l "alias"), LNone); ((s2l "name"), LStr (s2l "foo")); ((s2l "name"), LStr (s2l "while"))]);
  ((s2l "alias foo= while"), [((s2l "alias"), LNone); ((s2l "name"), LStr (s2l "foo=")); ((s2l "name"), LStr (s2l "while"))]);
  ((s2l "undef while"), [((s2l "undef"), LNone); ((s2l "name"), LStr (s2l "while"))]);
  ((s2l "alias yield foo"), [((s2l "alias"), LNone); ((s2l "name"), LStr (s2l "yield")); ((s2l "name"), LStr (s2l "foo"))]);
  ((s2l "alias foo yield"), [((s2l "alias"), LNone); ((s2l "name"), LStr (s2l "foo")); ((s2l "name"), LStr (s2l "yield"))]);
  ((s2l "alias foo= yield"), [((s2l "alias"), LNone); ((s2l "name"), LStr (s2l "foo=")); ((s2l "name"), LStr (s2l "yield"))]);
  ((s2l "undef yield"), [((s2l "undef"), LNone); ((s2l "name"), LStr (s2l "yield"))]);
  ((s2l "__ENCODING__"), [((s2l "__ENCODING__"), LNone)]);
  ((s2l "__LINE__"), [((s2l "__LINE__"), LNone)]);
  ((s2l "__FILE__"), [((s2l "__FILE__"), LNone)]);
  ((s2l "BEGIN"), [((s2l "BEGIN"), LNone)]);
  ((s2l "END"), [((s2l "END"), LNone)]);
  ((s2l "alias"), [((s2l "alias"), LNone)]);
  ((s2l "and"), [((s2l "and"), LNone)]);
  ((s2l "begin"), [((s2l "begin"), LNone)]);
  ((s2l "break"), [((s2l "break"), LNone)]);
  ((s2l "case"), [((s2l "case"), LNone)]);
  ((s2l "class"), [((s2l "class"), LNone)]);
  ((s2l "def"), [((s2l "def"), LNone)]);
  ((s2l "defined?"), [((s2l "defined?"), LNone)]);
  ((s2l "do"), [((s2l "do"), LNone)]);
  ((s2l "else"), [((s2l "else"), LNone)]);
  ((s2l "elsif"), [((s2l "elsif"), LNone)]);
  ((s2l "end"), [((s2l "end"), LNone)]);
  ((s2l "ensure"), [((s2l "ensure"), LNone)]);
  ((s2l "false"), [((s2l "false"), LNone)]);
  ((s2l "for"), [((s2l "for"), LNone)]);
  ((s2l "if"), [((s2l "if"), LNone)]);
  ((s2l "in"), [((s2l "in"), LNone)]);
  ((s2l "module"), [((s2l "module"), LNone)]);
  ((s2l "next"), [((s2l "next"), LNone)]);
  ((s2l "nil"), [((s2l "nil"), LNone)]);
  ((s2l "not"), [((s2l "not"), LNone)]);
  ((s2l "or"), [((s2l "or"), LNone)]);
  ((s2l "redo"), [((s2l "redo"), LNone)]);
  ((s2l "rescue"), [((s2l "rescue"), LNone)]);
  ((s2l "retry"), [((s2l "retry"), LNone)]);
  ((s2l "return"), [((s2l "return"), LNone)]);
  ((s2l "self"), [((s2l "self"), LNone)]);
  ((s2l "super"), [((s2l "super"), LNone)]);
  ((s2l "then"), [((s2l "then"), LNone)]);
  ((s2l "true"), [((s2l "true"), LNone)]);
  ((s2l "undef"), [((s2l "undef"), LNone)]);
  ((s2l "unless"), [((s2l "unless"), LNone)]);
  ((s2l "until"), [((s2l "until"), LNone)]);
  ((s2l "when"), [((s2l "when"), LNone)]);
  ((s2l "while"), [((s2l "while"), LNone)]);
  ((s2l "yield"), [((s2l "yield"), LNone)]);
  ((s2l "+ += - -= * *= ** **= / /= % %= = == === != =~ !~ > >= < <= <=> & | ^ ~ << >> && &&= || ||= ! ? : :: .. ... &. |= &= <<= >>="), [((s2l "+"), LNone); ((s2l "+="), LNone); ((s2l "-"), LNone); ((s2l "-="), LNone); ((s2l "*"), LNone); ((s2l "*="), LNone); ((s2l "**"), LNone); ((s2l "**="), LNone); ((s2l "/"), LNone); ((s2l "/="), LNone); ((s2l "%"), LNone); ((s2l "%="), LNone); ((s2l "="), LNone); ((s2l "=="), LNone); ((s2l "==="), LNone); ((s2l "!="), LNone); ((s2l "=~"), LNone); ((s2l "!~"), LNone); ((s2l ">"), LNone); ((s2l ">="), LNone); ((s2l "<"), LNone); ((s2l "<="), LNone); ((s2l "<=>"), LNone); ((s2l "&"), LNone); ((s2l "|"), LNone); ((s2l "^"), LNone); ((s2l "~"), LNone); ((s2l "<<"), LNone); ((s2l ">>"), LNone); ((s2l "&&"), LNone); ((s2l "&&="), LNone); ((s2l "||"), LNone); ((s2l "||="), LNone); ((s2l "!"), LNone); ((s2l "?"), LNone); ((s2l ":"), LNone); ((s2l "::"), LNone); ((s2l ".."), LNone); ((s2l "..."), LNone); ((s2l "&."), LNone); ((s2l "|="), LNone); ((s2l "&="), LNone); ((s2l "<<="), LNone); ((s2l ">>="), LNone)]);
  ((s2l ":foo"), [((s2l "symbol"), LStr (s2l "foo"))]);
  ((s2l ":FooBar123"), [((s2l "symbol"), LStr (s2l "FooBar123"))]);
  ((s2l ":foo_bar"), [((s2l "symbol"), LStr (s2l "foo_bar"))]);
  ((s2l ":'foo bar'"), [((s2l "symbol"), LStr (s2l "foo bar"))]);
  ((s2l ":foo?"), [((s2l "symbol"), LStr (s2l "foo?"))]);
  ((s2l ":'?foo'"), [((s2l "symbol"), LStr (s2l "?foo"))]);
  ((s2l ":foo!"), [((s2l "symbol"), LStr (s2l "foo!"))]);
  ((s2l ":'!foo'"), [((s2l "symbol"), LStr (s2l "!foo"))]);
  ((s2l ":'@'"), [((s2l "symbol"), LStr (s2l "@"))]);
  ((s2l ":@foo"), [((s2l "symbol"), LStr (s2l "@foo"))]);
  ((s2l ":@@foo"), [((s2l "symbol"), LStr (s2l "@@foo"))]);
  ((s2l ":'foo@'"), [((s2l "symbol"), LStr (s2l "foo@"))]);
  ((s2l ":$foo"), [((s2l "symbol"), LStr (s2l "$foo"))]);
  ((s2l ":'foo$'"), [((s2l "symbol"), LStr (s2l "foo$"))]);
  ((s2l ":+"), [((s2l "symbol"), LStr (s2l "+"))]);
  ((s2l ":-"), [((s2l "symbol"), LStr (s2l "-"))]);
  ((s2l ":*"), [((s2l "symbol"), LStr (s2l "*"))]);
  ((s2l ":**"), [((s2l "symbol"), LStr (s2l "**"))]);
  ((s2l ":/"), [((s2l "symbol"), LStr (s2l "/"))]);
  ((s2l ":=="), [((s2l "symbol"), LStr (s2l "=="))]);
  ((s2l ":!="), [((s2l "symbol"), LStr (s2l "!="))]);
  ((s2l ":!"), [((s2l "symbol"), LStr (s2l "!"))]);
  ((s2l ":!~"), [((s2l "symbol"), LStr (s2l "!~"))]);
  ((s2l ":'='"), [((s2l "symbol"), LStr (s2l "="))]);
  ((s2l ":%"), [((s2l "symbol"), LStr (s2l "%"))]);
  ((s2l ":$0"), [((s2l "symbol"), LStr (s2l "$0"))]);
  ((s2l ":[]"), [((s2l "symbol"), LStr (s2l "[]"))]);
  ((s2l ":[]="), [((s2l "symbol"), LStr (s2l "[]="))]);
  ((s2l ":+@"), [((s2l "symbol"), LStr (s2l "+@"))]);
  ((s2l ":-@"), [((s2l "symbol"), LStr (s2l "-@"))]);
  ((s2l ":!@"), [((s2l "symbol"), LStr (s2l "!@"))]);
  ((s2l ":'!@'"), [((s2l "symbol"), LStr (s2l "!@"))]);
  ((s2l ":~@"), [((s2l "symbol"), LStr (s2l "~"))]);
  ((s2l ":==="), [((s2l "symbol"), LStr (s2l "==="))]);
  ((s2l ":=~"), [((s2l "symbol"), LStr (s2l "=~"))]);
  ((s2l ":>"), [((s2l "symbol"), LStr (s2l ">"))]);
  ((s2l ":>="), [((s2l "symbol"), LStr (s2l ">="))]);
  ((s2l ":>>"), [((s2l "symbol"), LStr (s2l ">>"))]);
  ((s2l ":<"), [((s2l "symbol"), LStr (s2l "<"))]);
  ((s2l ":<="), [((s2l "symbol"), LStr (s2l "<="))]);
  ((s2l ":<=>"), [((s2l "symbol"), LStr (s2l "<=>"))]);
  ((s2l ":<<"), [((s2l "symbol"), LStr (s2l "<<"))]);
  ((s2l ":&"), [((s2l "symbol"), LStr (s2l "&"))]);
  ((s2l ":|"), [((s2l "symbol"), LStr (s2l "|"))]);
  ((s2l ":^"), [((s2l "symbol"), LStr (s2l "^"))]);
  ((s2l ":~"), [((s2l "symbol"), LStr (s2l "~"))]);
  ((s2l "%q(foo)"), [((s2l "string"), LStr (s2l "foo"))]);
  ((s2l "%q[foo]"), [((s2l "string"), LStr (s2l "foo"))]);
  ((s2l "%q{foo}"), [((s2l "string"), LStr (s2l "foo"))]);
  ((s2l "%q<foo>"), [((s2l "string"), LStr (s2l "foo"))]);
  ((s2l "%q~foo~"), [((s2l "string"), LStr (s2l "foo"))]);
  ((s2l "%q`foo`"), [((s2l "string"), LStr (s2l "foo"))]);
  ((s2l "%q|foo|"), [((s2l "string"), LStr (s2l "foo"))]);
  ((s2l "%q/foo/"), [((s2l "string"), LStr (s2l "foo"))]);
  ((s2l "%q!foo!"), [((s2l "string"), LStr (s2l "foo"))]);
  ((s2l "%q@foo@"), [((s2l "string"), LStr (s2l "foo"))]);
  ((s2l "%q#foo#"), [((s2l "string"), LStr (s2l "foo"))]);
  ((s2l "%q$foo$"), [((s2l "string"), LStr (s2l "foo"))]);
  ((s2l "%q%foo%"), [((s2l "string"), LStr (s2l "foo"))]);
  ((s2l "%q^foo^"), [((s2l "string"), LStr (s2l "foo"))]);
  ((s2l "%q&foo&"), [((s2l "string"), LStr (s2l "foo"))]);
  ((s2l "%q*foo*"), [((s2l "string"), LStr (s2l "foo"))]);
  ((s2l "%q,foo,"), [((s2l "string"), LStr (s2l "foo"))]);
  ((s2l "%q.foo."), [((s2l "string"), LStr (s2l "foo"))]);
  ((s2l "%q?foo?"), [((s2l "string"), LStr (s2l "foo"))]);
  ((s2l "%q:foo:"), [((s2l "string"), LStr (s2l "foo"))]);
  ((s2l "%q'foo'"), [((s2l "string"), LStr (s2l "foo"))]);
  ((s2l "%q""foo"""), [((s2l "string"), LStr (s2l "foo"))]);
  ((s2l "%q-foo-"), [((s2l "string"), LStr (s2l "foo"))]);
  ((s2l "%q_foo_"), [((s2l "string"), LStr (s2l "foo"))]);
  ((s2l "%q+foo+"), [((s2l "string"), LStr (s2l "foo"))]);
  ((s2l "%q\foo\"), [((s2l "string"), LStr (s2l "foo"))]);
  ((s2l "%q;foo;"), [((s2l "string"), LStr (s2l "foo"))]);
  ((s2l "%q=foo="), [((s2l "string"), LStr (s2l "foo"))]);
  ((s2l "%s(foo)"), [((s2l "symbol"), LStr (s2l "foo"))]);
  ((s2l "%s[foo]"), [((s2l "symbol"), LStr (s2l "foo"))]);
  ((s2l "%s{foo}"), [((s2l "symbol"), LStr (s2l "foo"))]);
  ((s2l "%s<foo>"), [((s2l "symbol"), LStr (s2l "foo"))]);
  ((s2l "%s~foo~"), [((s2l "symbol"), LStr (s2l "foo"))]);
  ((s2l "%s`foo`"), [((s2l "symbol"), LStr (s2l "foo"))]);
  ((s2l "%s|foo|"), [((s2l "symbol"), LStr (s2l "foo"))]);
  ((s2l "%s/foo/"), [((s2l "symbol"), LStr (s2l "foo"))]);
  ((s2l "%s!foo!"), [((s2l "symbol"), LStr (s2l "foo"))]);
  ((s2l "%s@foo@"), [((s2l "symbol"), LStr (s2l "foo"))]);
  ((s2l "%s#foo#"), [((s2l "symbol"), LStr (s2l "foo"))]);
  ((s2l "%s$foo$"), [((s2l "symbol"), LStr (s2l "foo"))]);
  ((s2l "%s%foo%"), [((s2l "symbol"), LStr (s2l "foo"))]);
  ((s2l "%s^foo^"), [((s2l "symbol"), LStr (s2l "foo"))]);
  ((s2l "%s&foo&"), [((s2l "symbol"), LStr (s2l "foo"))]);
  ((s2l "%s*foo*"), [((s2l "symbol"), LStr (s2l "foo"))]);
  ((s2l "%s,foo,"), [((s2l "symbol"), LStr (s2l "foo"))]);
  ((s2l "%s.foo."), [((s2l "symbol"), LStr (s2l "foo"))]);
  ((s2l "%s?foo?"), [((s2l "symbol"), LStr (s2l "foo"))]);
  ((s2l "%s:foo:"), [((s2l "symbol"), LStr (s2l "foo"))]);
  ((s2l "%s'foo'"), [((s2l "symbol"), LStr (s2l "foo"))]);
  ((s2l "%s""foo"""), [((s2l "symbol"), LStr (s2l "foo"))]);
  ((s2l "%s-foo-"), [((s2l "symbol"), LStr (s2l "foo"))]);
  ((s2l "%s_foo_"), [((s2l "symbol"), LStr (s2l "foo"))]);
  ((s2l "%s+foo+"), [((s2l "symbol"), LStr (s2l "foo"))]);
  ((s2l "%s\foo\"), [((s2l "symbol"), LStr (s2l "foo"))]);
  ((s2l "%s;foo;"), [((s2l "symbol"), LStr (s2l "foo"))]);
  ((s2l "%s=foo="), [((s2l "symbol"), LStr (s2l "foo"))]);
  ((s2l "%(foo)"), [((s2l "dstr"), LNone); ((s2l "string"), LStr (s2l "foo")); ((s2l "dstrend"), LNone)]);
  ((s2l "%[foo]"), [((s2l "dstr"), LNone); ((s2l "string"), LStr (s2l "foo")); ((s2l "dstrend"), LNone)]);
  ((s2l "%{foo}"), [((s2l "dstr"), LNone); ((s2l "string"), LStr (s2l "foo")); ((s2l "dstrend"), LNone)]);
  ((s2l "%<foo>"), [((s2l "dstr"), LNone); ((s2l "string"), LStr (s2l "foo")); ((s2l "dstrend"), LNone)]);
  ((s2l "%~foo~"), [((s2l "dstr"), LNone); ((s2l "string"), LStr (s2l "foo")); ((s2l "dstrend"), LNone)]);
  ((s2l "%`foo`"), [((s2l "dstr"), LNone); ((s2l "string"), LStr (s2l "foo")); ((s2l "dstrend"), LNone)]);
  ((s2l "%|foo|"), [((s2l "dstr"), LNone); ((s2l "string"), LStr (s2l "foo")); ((s2l "dstrend"), LNone)]);
  ((s2l "%/foo/"), [((s2l "dstr"), LNone); ((s2l "string"), LStr (s2l "foo")); ((s2l "dstrend"), LNone)]);
  ((s2l "%!foo!"), [((s2l "dstr"), LNone); ((s2l "string"), LStr (s2l "foo")); ((s2l "dstrend"), LNone)]);
  ((s2l "%@foo@"), [((s2l "dstr"), LNone); ((s2l "string"), LStr (s2l "foo")); ((s2l "dstrend"), LNone)]);
  ((s2l "%#foo#"), [((s2l "dstr"), LNone); ((s2l "string"), LStr (s2l "foo")); ((s2l "dstrend"), LNone)]);
  ((s2l "%$foo$"), [((s2l "dstr"), LNone); ((s2l "string"), LStr (s2l "foo")); ((s2l "dstrend"), LNone)]);
  ((s2l "%%foo%"), [((s2l "dstr"), LNone); ((s2l "string"), LStr (s2l "foo")); ((s2l "dstrend"), LNone)]);
  ((s2l "%^foo^"), [((s2l "dstr"), LNone); ((s2l "string"), LStr (s2l "foo")); ((s2l "dstrend"), LNone)]);
  ((s2l "%&foo&"), [((s2l "dstr"), LNone); ((s2l "string"), LStr (s2l "foo")); ((s2l "dstrend"), LNone)]);
  ((s2l "%*foo*"), [((s2l "dstr"), LNone); ((s2l "string"), LStr (s2l "foo")); ((s2l "dstrend"), LNone)]);
  ((s2l "%,foo,"), [((s2l "dstr"), LNone); ((s2l "string"), LStr (s2l "foo")); ((s2l "dstrend"), LNone)]);
  ((s2l "%.foo."), [((s2l "dstr"), LNone); ((s2l "string"), LStr (s2l "foo")); ((s2l "dstrend"), LNone)]);
  ((s2l "%?foo?"), [((s2l "dstr"), LNone); ((s2l "string"), LStr (s2l "foo")); ((s2l "dstrend"), LNone)]);
  ((s2l "%:foo:"), [((s2l "dstr"), LNone); ((s2l "string"), LStr (s2l "foo")); ((s2l "dstrend"), LNone)]);
  ((s2l "%'foo'"), [((s2l "dstr"), LNone); ((s2l "string"), LStr (s2l "foo")); ((s2l "dstrend"), LNone)]);
  ((s2l "%""foo"""), [((s2l "dstr"), LNone); ((s2l "string"), LStr (s2l "foo")); ((s2l "dstrend"), LNone)]);
  ((s2l "%-foo-"), [((s2l "dstr"), LNone); ((s2l "string"), LStr (s2l "foo")); ((s2l "dstrend"), LNone)]);
  ((s2l "%_foo_"), [((s2l "dstr"), LNone); ((s2l "string"), LStr (s2l "foo")); ((s2l "dstrend"), LNone)]);
  ((s2l "%+foo+"), [((s2l "dstr"), LNone); ((s2l "string"), LStr (s2l "foo")); ((s2l "dstrend"), LNone)]);
  ((s2l "%\foo\"), [((s2l "dstr"), LNone); ((s2l "string"), LStr (s2l "foo")); ((s2l "dstrend"), LNone)]);
  ((s2l "%;foo;"), [((s2l "dstr"), LNone); ((s2l "string"), LStr (s2l "foo")); ((s2l "dstrend"), LNone)]);
  ((s2l "%Q(foo)"), [((s2l "dstr"), LNone); ((s2l "string"), LStr (s2l "foo")); ((s2l "dstrend"), LNone)]);
  ((s2l "%Q[foo]"), [((s2l "dstr"), LNone); ((s2l "string"), LStr (s2l "foo")); ((s2l "dstrend"), LNone)]);
  ((s2l "%Q{foo}"), [((s2l "dstr"), LNone); ((s2l "string"), LStr (s2l "foo")); ((s2l "dstrend"), LNone)]);
  ((s2l "%Q<foo>"), [((s2l "dstr"), LNone); ((s2l "string"), LStr (s2l "foo")); ((s2l "dstrend"), LNone)]);
  ((s2l "%Q~foo~"), [((s2l "dstr"), LNone); ((s2l "string"), LStr (s2l "foo")); ((s2l "dstrend"), LNone)]);
  ((s2l "%Q`foo`"), [((s2l "dstr"), LNone); ((s2l "string"), LStr (s2l "foo")); ((s2l "dstrend"), LNone)]);
  ((s2l "%Q|foo|"), [((s2l "dstr"), LNone); ((s2l "string"), LStr (s2l "foo")); ((s2l "dstrend"), LNone)]);
  ((s2l "%Q/foo/"), [((s2l "dstr"), LNone); ((s2l "string"), LStr (s2l "foo")); ((s2l "dstrend"), LNone)]);
  ((s2l "%Q!foo!"), [((s2l "dstr"), LNone); ((s2l "string"), LStr (s2l "foo")); ((s2l "dstrend"), LNone)]);
  ((s2l "%Q@foo@"), [((s2l "dstr"), LNone); ((s2l "string"), LStr (s2l "foo")); ((s2l "dstrend"), LNone)]);
  ((s2l "%Q#foo#"), [((s2l "dstr"), LNone); ((s2l "string"), LStr (s2l "foo")); ((s2l "dstrend"), LNone)]);
  ((s2l "%Q$foo$"), [((s2l "dstr"), LNone); ((s2l "string"), LStr (s2l "foo")); ((s2l "dstrend"), LNone)]);
  ((s2l "%Q%foo%"), [((s2l "dstr"), LNone); ((s2l "string"), LStr (s2l "foo")); ((s2l "dstrend"), LNone)]);
  ((s2l "%Q^foo^"), [((s2l "dstr"), LNone); ((s2l "string"), LStr (s2l "foo")); ((s2l "dstrend"), LNone)]);
  ((s2l "%Q&foo&"), [((s2l "dstr"), LNone); ((s2l "string"), LStr (s2l "foo")); ((s2l "dstrend"), LNone)]);
  ((s2l "%Q*foo*"), [((s2l "dstr"), LNone); ((s2l "string"), LStr (s2l "foo")); ((s2l "dstrend"), LNone)]);
  ((s2l "%Q,foo,"), [((s2l "dstr"), LNone); ((s2l "string"), LStr (s2l "foo")); ((s2l "dstrend"), LNone)]);
  ((s2l "%Q.foo."), [((s2l "dstr"), LNone); ((s2l "string"), LStr (s2l "foo")); ((s2l "dstrend"), LNone)]);
  ((s2l "%Q?foo?"), [((s2l "dstr"), LNone); ((s2l "string"), LStr (s2l "foo")); ((s2l "dstrend"), LNone)]);
  ((s2l "%Q:foo:"), [((s2l "dstr"), LNone); ((s2l "string"), LStr (s2l "foo")); ((s2l "dstrend"), LNone)]);
  ((s2l "%Q'foo'"), [((s2l "dstr"), LNone); ((s2l "string"), LStr (s2l "foo")); ((s2l "dstrend"), LNone)]);
  ((s2l "%Q""foo"""), [((s2l "dstr"), LNone); ((s2l "string"), LStr (s2l "foo")); ((s2l "dstrend"), LNone)]);
  ((s2l "%Q-foo-"), [((s2l "dstr"), LNone); ((s2l "string"), LStr (s2l "foo")); ((s2l "dstrend"), LNone)]);
  ((s2l "%Q_foo_"), [((s2l "dstr"), LNone); ((s2l "string"), LStr (s2l "foo")); ((s2l "dstrend"), LNone)]);
  ((s2l "%Q+foo+"), [((s2l "dstr"), LNone); ((s2l "string"), LStr (s2l "foo")); ((s2l "dstrend"), LNone)]);
  ((s2l "%Q\foo\"), [((s2l "dstr"), LNone); ((s2l "string"), LStr (s2l "foo")); ((s2l "dstrend"), LNone)]);
  ((s2l "%Q;foo;"), [((s2l "dstr"), LNone); ((s2l "string"), LStr (s2l "foo")); ((s2l "dstrend"), LNone)]);
  ((s2l "%W(foo)"), [((s2l "%W["), LNone); ((s2l "string"), LStr (s2l "foo")); ((s2l "]"), LNone)]);
  ((s2l "%W[foo]"), [((s2l "%W["), LNone); ((s2l "string"), LStr (s2l "foo")); ((s2l "]"), LNone)]);
  ((s2l "%W{foo}"), [((s2l "%W["), LNone); ((s2l "string"), LStr (s2l "foo")); ((s2l "]"), LNone)]);
  ((s2l "%W<foo>"), [((s2l "%W["), LNone); ((s2l "string"), LStr (s2l "foo")); ((s2l "]"), LNone)]);
  ((s2l "%W~foo~"), [((s2l "%W["), LNone); ((s2l "string"), LStr (s2l "foo")); ((s2l "]"), LNone)]);
  ((s2l "%W`foo`"), [((s2l "%W["), LNone); ((s2l "string"), LStr (s2l "foo")); ((s2l "]"), LNone)]);
  ((s2l "%W|foo|"), [((s2l "%W["), LNone); ((s2l "string"), LStr (s2l "foo")); ((s2l "]"), LNone)]);
  ((s2l "%W/foo/"), [((s2l "%W["), LNone); ((s2l "string"), LStr (s2l "foo")); ((s2l "]"), LNone)]);
  ((s2l "%W!foo!"), [((s2l "%W["), LNone); ((s2l "string"), LStr (s2l "foo")); ((s2l "]"), LNone)]);
  ((s2l "%W@foo@"), [((s2l "%W["), LNone); ((s2l "string"), LStr (s2l "foo")); ((s2l "]"), LNone)]);
  ((s2l "%W#foo#"), [((s2l "%W["), LNone); ((s2l "string"), LStr (s2l "foo")); ((s2l "]"), LNone)]);
  ((s2l "%W$foo$"), [((s2l "%W["), LNone); ((s2l "string"), LStr (s2l "foo")); ((s2l "]"), LNone)]);
  ((s2l "%W%foo%"), [((s2l "%W["), LNone); ((s2l "string"), LStr (s2l "foo")); ((s2l "]"), LNone)]);
  ((s2l "%W^foo^"), [((s2l "%W["), LNone); ((s2l "string"), LStr (s2l "foo")); ((s2l "]"), LNone)]);
  ((s2l "%W&foo&"), [((s2l "%W["), LNone); ((s2l "string"), LStr (s2l "foo")); ((s2l "]"), LNone)]);
  ((s2l "%W*foo*"), [((s2l "%W["), LNone); ((s2l "string"), LStr (s2l "foo")); ((s2l "]"), LNone)]);
  ((s2l "%W,foo,"), [((s2l "%W["), LNone); ((s2l "string"), LStr (s2l "foo")); ((s2l "]"), LNone)]);
  ((s2l "%W.foo."), [((s2l "%W["), LNone); ((s2l "string"), LStr (s2l "foo")); ((s2l "]"), LNone)]);
  ((s2l "%W?foo?"), [((s2l "%W["), LNone); ((s2l "string"), LStr (s2l "foo")); ((s2l "]"), LNone)]);
  ((s2l "%W:foo:"), [((s2l "%W["), LNone); ((s2l "string"), LStr (s2l "foo")); ((s2l "]"), LNone)]);
  ((s2l "%W'foo'"), [((s2l "%W["), LNone); ((s2l "string"), LStr (s2l "foo")); ((s2l "]"), LNone)]);
  ((s2l "%W""foo"""), [((s2l "%W["), LNone); ((s2l "string"), LStr (s2l "foo")); ((s2l "]"), LNone)]);
  ((s2l "%W-foo-"), [((s2l "%W["), LNone); ((s2l "string"), LStr (s2l "foo")); ((s2l "]"), LNone)]);
  ((s2l "%W_foo_"), [((s2l "%W["), LNone); ((s2l "string"), LStr (s2l "foo")); ((s2l "]"), LNone)]);
  ((s2l "%W+foo+"), [((s2l "%W["), LNone); ((s2l "string"), LStr (s2l "foo")); ((s2l "]"), LNone)]);
  ((s2l "%W\foo\"), [((s2l "%W["), LNone); ((s2l "string"), LStr (s2l "foo")); ((s2l "]"), LNone)]);
  ((s2l "%W;foo;"), [((s2l "%W["), LNone); ((s2l "string"), LStr (s2l "foo")); ((s2l "]"), LNone)]);
  ((s2l "%I(foo)"), [((s2l "%I["), LNone); ((s2l "string"), LStr (s2l "foo")); ((s2l "]"), LNone)]);
  ((s2l "%I[foo]"), [((s2l "%I["), LNone); ((s2l "string"), LStr (s2l "foo")); ((s2l "]"), LNone)]);
  ((s2l "%I{foo}"), [((s2l "%I["), LNone); ((s2l "string"), LStr (s2l "foo")); ((s2l "]"), LNone)]);
  ((s2l "%I<foo>"), [((s2l "%I["), LNone); ((s2l "string"), LStr (s2l "foo")); ((s2l "]"), LNone)]);
  ((s2l "%I~foo~"), [((s2l "%I["), LNone); ((s2l "string"), LStr (s2l "foo")); ((s2l "]"), LNone)]);
  ((s2l "%I`foo`"), [((s2l "%I["), LNone); ((s2l "string"), LStr (s2l "foo")); ((s2l "]"), LNone)]);
  ((s2l "%I|foo|"), [((s2l "%I["), LNone); ((s2l "string"), LStr (s2l "foo")); ((s2l "]"), LNone)]);
  ((s2l "%I/foo/"), [((s2l "%I["), LNone); ((s2l "string"), LStr (s2l "foo")); ((s2l "]"), LNone)]);
  ((s2l "%I!foo!"), [((s2l "%I["), LNone); ((s2l "string"), LStr (s2l "foo")); ((s2l "]"), LNone)]);
  ((s2l "%I@foo@"), [((s2l "%I["), LNone); ((s2l "string"), LStr (s2l "foo")); ((s2l "]"), LNone)]);
  ((s2l "%I#foo#"), [((s2l "%I["), LNone); ((s2l "string"), LStr (s2l "foo")); ((s2l "]"), LNone)]);
  ((s2l "%I$foo$"), [((s2l "%I["), LNone); ((s2l "string"), LStr (s2l "foo")); ((s2l "]"), LNone)]);
  ((s2l "%I%foo%"), [((s2l "%I["), LNone); ((s2l "string"), LStr (s2l "foo")); ((s2l "]"), LNone)]);
  ((s2l "%I^foo^"), [((s2l "%I["), LNone); ((s2l "string"), LStr (s2l "foo")); ((s2l "]"), LNone)]);
  ((s2l "%I&foo&"), [((s2l "%I["), LNone); ((s2l "string"), LStr (s2l "foo")); ((s2l "]"), LNone)]);
  ((s2l "%I*foo*"), [((s2l "%I["), LNone); ((s2l "string"), LStr (s2l "foo")); ((s2l "]"), LNone)]);
  ((s2l "%I,foo,"), [((s2l "%I["), LNone); ((s2l "string"), LStr (s2l "foo")); ((s2l "]"), LNone)]);
  ((s2l "%I.foo."), [((s2l "%I["), LNone); ((s2l "string"), LStr (s2l "foo")); ((s2l "]"), LNone)]);
  ((s2l "%I?foo?"), [((s2l "%I["), LNone); ((s2l "string"), LStr (s2l "foo")); ((s2l "]"), LNone)]);
  ((s2l "%I:foo:"), [((s2l "%I["), LNone); ((s2l "string"), LStr (s2l "foo")); ((s2l "]"), LNone)]);
  ((s2l "%I'foo'"), [((s2l "%I["), LNone); ((s2l "string"), LStr (s2l "foo")); ((s2l "]"), LNone)]);
  ((s2l "%I""foo"""), [((s2l "%I["), LNone); ((s2l "string"), LStr (s2l "foo")); ((s2l "]"), LNone)]);
  ((s2l "%I-foo-"), [((s2l "%I["), LNone); ((s2l "string"), LStr (s2l "foo")); ((s2l "]"), LNone)]);
  ((s2l "%I_foo_"), [((s2l "%I["), LNone); ((s2l "string"), LStr (s2l "foo")); ((s2l "]"), LNone)]);
  ((s2l "%I+foo+"), [((s2l "%I["), LNone); ((s2l "string"), LStr (s2l "foo")); ((s2l "]"), LNone)]);
  ((s2l "%I\foo\"), [((s2l "%I["), LNone); ((s2l "string"), LStr (s2l "foo")); ((s2l "]"), LNone)]);
  ((s2l "%I;foo;"), [((s2l "%I["), LNone); ((s2l "string"), LStr (s2l "foo")); ((s2l "]"), LNone)]);
  ((s2l "%x(foo)"), [((s2l "dxstr"), LNone); ((s2l "string"), LStr (s2l "foo")); ((s2l "dxstrend"), LNone)]);
  ((s2l "%x[foo]"), [((s2l "dxstr"), LNone); ((s2l "string"), LStr (s2l "foo")); ((s2l "dxstrend"), LNone)]);
  ((s2l "%x{foo}"), [((s2l "dxstr"), LNone); ((s2l "string"), LStr (s2l "foo")); ((s2l "dxstrend"), LNone)]);
  ((s2l "%x<foo>"), [((s2l "dxstr"), LNone); ((s2l "string"), LStr (s2l "foo")); ((s2l "dxstrend"), LNone)]);
  ((s2l "%x~foo~"), [((s2l "dxstr"), LNone); ((s2l "string"), LStr (s2l "foo")); ((s2l "dxstrend"), LNone)]);
  ((s2l "%x`foo`"), [((s2l "dxstr"), LNone); ((s2l "string"), LStr (s2l "foo")); ((s2l "dxstrend"), LNone)]);
  ((s2l "%x|foo|"), [((s2l "dxstr"), LNone); ((s2l "string"), LStr (s2l "foo")); ((s2l "dxstrend"), LNone)]);
  ((s2l "%x/foo/"), [((s2l "dxstr"), LNone); ((s2l "string"), LStr (s2l "foo")); ((s2l "dxstrend"), LNone)]);
  ((s2l "%x!foo!"), [((s2l "dxstr"), LNone); ((s2l "string"), LStr (s2l "foo")); ((s2l "dxstrend"), LNone)]);
  ((s2l "%x@foo@"), [((s2l "dxstr"), LNone); ((s2l "string"), LStr (s2l "foo")); ((s2l "dxstrend"), LNone)]);
  ((s2l "%x#foo#"), [((s2l "dxstr"), LNone); ((s2l "string"), LStr (s2l "foo")); ((s2l "dxstrend"), LNone)]);
  ((s2l "%x$foo$"), [((s2l "dxstr"), LNone); ((s2l "string"), LStr (s2l "foo")); ((s2l "dxstrend"), LNone)]);
  ((s2l "%x%foo%"), [((s2l "dxstr"), LNone); ((s2l "string"), LStr (s2l "foo")); ((s2l "dxstrend"), LNone)]);
  ((s2l "%x^foo^"), [((s2l "dxstr"), LNone); ((s2l "string"), LStr (s2l "foo")); ((s2l "dxstrend"), LNone)]);
  ((s2l "%x&foo&"), [((s2l "dxstr"), LNone); ((s2l "string"), LStr (s2l "foo")); ((s2l "dxstrend"), LNone)]);
  ((s2l "%x*foo*"), [((s2l "dxstr"), LNone); ((s2l "string"), LStr (s2l "foo")); ((s2l "dxstrend"), LNone)]);
  ((s2l "%x,foo,"), [((s2l "dxstr"), LNone); ((s2l "string"), LStr (s2l "foo")); ((s2l "dxstrend"), LNone)]);
  ((s2l "%x.foo."), [((s2l "dxstr"), LNone); ((s2l "string"), LStr (s2l "foo")); ((s2l "dxstrend"), LNone)]);
  ((s2l "%x?foo?"), [((s2l "dxstr"), LNone); ((s2l "string"), LStr (s2l "foo")); ((s2l "dxstrend"), LNone)]);
  ((s2l "%x:foo:"), [((s2l "dxstr"), LNone); ((s2l "string"), LStr (s2l "foo")); ((s2l "dxstrend"), LNone)]);
  ((s2l "%x'foo'"), [((s2l "dxstr"), LNone); ((s2l "string"), LStr (s2l "foo")); ((s2l "dxstrend"), LNone)]);
  ((s2l "%x""foo"""), [((s2l "dxstr"), LNone); ((s2l "string"), LStr (s2l "foo")); ((s2l "dxstrend"), LNone)]);
  ((s2l "%x-foo-"), [((s2l "dxstr"), LNone); ((s2l "string"), LStr (s2l "foo")); ((s2l "dxstrend"), LNone)]);
  ((s2l "%x_foo_"), [((s2l "dxstr"), LNone); ((s2l "string"), LStr (s2l "foo")); ((s2l "dxstrend"), LNone)]);
  ((s2l "%x+foo+"), [((s2l "dxstr"), LNone); ((s2l "string"), LStr (s2l "foo")); ((s2l "dxstrend"), LNone)]);
  ((s2l "%x\foo\"), [((s2l "dxstr"), LNone); ((s2l "string"), LStr (s2l "foo")); ((s2l "dxstrend"), LNone)]);
  ((s2l "%x;foo;"), [((s2l "dxstr"), LNone); ((s2l "string"), LStr (s2l "foo")); ((s2l "dxstrend"), LNone)]);
  ([37;87;40;32;32;32;32;102;111;111;10;32;49;9;32;50;32;32;41], [((s2l "%W["), LNone); ((s2l "string"), LStr (s2l "foo")); ((s2l "string"), LStr (s2l "1")); ((s2l "string"), LStr (s2l "2")); ((s2l "]"), LNone)]);
  ([37;87;91;32;32;32;32;102;111;111;10;32;49;9;32;50;32;32;93], [((s2l "%W["), LNone); ((s2l "string"), LStr (s2l "foo")); ((s2l "string"), LStr (s2l "1")); ((s2l "string"), LStr (s2l "2")); ((s2l "]"), LNone)]);
  ([37;87;123;32;32;32;32;102;111;111;10;32;49;9;32;50;32;32;125], [((s2l "%W["), LNone); ((s2l "string"), LStr (s2l "foo")); ((s2l "string"), LStr (s2l "1")); ((s2l "string"), LStr (s2l "2")); ((s2l "]"), LNone)]);
  ([37;87;60;32;32;32;32;102;111;111;10;32;49;9;32;50;32;32;62], [((s2l "%W["), LNone); ((s2l "string"), LStr (s2l "foo")); ((s2l "string"), LStr (s2l "1")); ((s2l "string"), LStr (s2l "2")); ((s2l "]"), LNone)]);
  ([37;87;47;32;32;32;32;102;111;111;10;32;49;9;32;50;32;32;47], [((s2l "%W["), LNone); ((s2l "string"), LStr (s2l "foo")); ((s2l "string"), LStr (s2l "1")); ((s2l "string"), LStr (s2l "2")); ((s2l "]"), LNone)]);
  ([37;87;124;32;32;32;32;102;111;111;10;32;49;9;32;50;32;32;124], [((s2l "%W["), LNone); ((s2l "string"), LStr (s2l "foo")); ((s2l "string"), LStr (s2l "1")); ((s2l "string"), LStr (s2l "2")); ((s2l "]"), LNone)]);
  ([37;119;40;32;32;32;32;102;111;111;10;32;49;9;32;50;32;32;41], [((s2l "%w["), LNone); ((s2l "string"), LStr (s2l "foo")); ((s2l "string"), LStr (s2l "1")); ((s2l "string"), LStr (s2l "2")); ((s2l "]"), LNone)]);
  ([37;119;91;32;32;32;32;102;111;111;10;32;49;9;32;50;32;32;93], [((s2l "%w["), LNone); ((s2l "string"), LStr (s2l "foo")); ((s2l "string"), LStr (s2l "1")); ((s2l "string"), LStr (s2l "2")); ((s2l "]"), LNone)]);
  ([37;119;123;32;32;32;32;102;111;111;10;32;49;9;32;50;32;32;125], [((s2l "%w["), LNone); ((s2l "string"), LStr (s2l "foo")); ((s2l "string"), LStr (s2l "1")); ((s2l "string"), LStr (s2l "2")); ((s2l "]"), LNone)]);
  ([37;119;60;32;32;32;32;102;111;111;10;32;49;9;32;50;32;32;62], [((s2l "%w["), LNone); ((s2l "string"), LStr (s2l "foo")); ((s2l "string"), LStr (s2l "1")); ((s2l "string"), LStr (s2l "2")); ((s2l "]"), LNone)]);
  ([37;119;47;32;32;32;32;102;111;111;10;32;49;9;32;50;32;32;47], [((s2l "%w["), LNone); ((s2l "string"), LStr (s2l "foo")); ((s2l "string"), LStr (s2l "1")); ((s2l "string"), LStr (s2l "2")); ((s2l "]"), LNone)]);
  ([37;119;124;32;32;32;32;102;111;111;10;32;49;9;32;50;32;32;124], [((s2l "%w["), LNone); ((s2l "string"), LStr (s2l "foo")); ((s2l "string"), LStr (s2l "1")); ((s2l "string"), LStr (s2l "2")); ((s2l "]"), LNone)]);
  ([37;105;40;32;32;32;32;102;111;111;10;32;49;9;32;50;32;32;41], [((s2l "%i["), LNone); ((s2l "string"), LStr (s2l "foo")); ((s2l "string"), LStr (s2l "1")); ((s2l "string"), LStr (s2l "2")); ((s2l "]"), LNone)]);
  ([37;105;91;32;32;32;32;102;111;111;10;32;49;9;32;50;32;32;93], [((s2l "%i["), LNone); ((s2l "string"), LStr (s2l "foo")); ((s2l "string"), LStr (s2l "1")); ((s2l "string"), LStr (s2l "2")); ((s2l "]"), LNone)]);
  ([37;105;123;32;32;32;32;102;111;111;10;32;49;9;32;50;32;32;125], [((s2l "%i["), LNone); ((s2l "string"), LStr (s2l "foo")); ((s2l "string"), LStr (s2l "1")); ((s2l "string"), LStr (s2l "2")); ((s2l "]"), LNone)]);
  ([37;105;60;32;32;32;32;102;111;111;10;32;49;9;32;50;32;32;62], [((s2l "%i["), LNone); ((s2l "string"), LStr (s2l "foo")); ((s2l "string"), LStr (s2l "1")); ((s2l "string"), LStr (s2l "2")); ((s2l "]"), LNone)]);
  ([37;105;47;32;32;32;32;102;111;111;10;32;49;9;32;50;32;32;47], [((s2l "%i["), LNone); ((s2l "string"), LStr (s2l "foo")); ((s2l "string"), LStr (s2l "1")); ((s2l "string"), LStr (s2l "2")); ((s2l "]"), LNone)]);
  ([37;105;124;32;32;32;32;102;111;111;10;32;49;9;32;50;32;32;124], [((s2l "%i["), LNone); ((s2l "string"), LStr (s2l "foo")); ((s2l "string"), LStr (s2l "1")); ((s2l "string"), LStr (s2l "2")); ((s2l "]"), LNone)]);
  ([37;73;40;32;32;32;32;102;111;111;10;32;49;9;32;50;32;32;41], [((s2l "%I["), LNone); ((s2l "string"), LStr (s2l "foo")); ((s2l "string"), LStr (s2l "1")); ((s2l "string"), LStr (s2l "2")); ((s2l "]"), LNone)]);
  ([37;73;91;32;32;32;32;102;111;111;10;32;49;9;32;50;32;32;93], [((s2l "%I["), LNone); ((s2l "string"), LStr (s2l "foo")); ((s2l "string"), LStr (s2l "1")); ((s2l "string"), LStr (s2l "2")); ((s2l "]"), LNone)]);
  ([37;73;123;32;32;32;32;102;111;111;10;32;49;9;32;50;32;32;125], [((s2l "%I["), LNone); ((s2l "string"), LStr (s2l "foo")); ((s2l "string"), LStr (s2l "1")); ((s2l "string"), LStr (s2l "2")); ((s2l "]"), LNone)]);
  ([37;73;60;32;32;32;32;102;111;111;10;32;49;9;32;50;32;32;62], [((s2l "%I["), LNone); ((s2l "string"), LStr (s2l "foo")); ((s2l "string"), LStr (s2l "1")); ((s2l "string"), LStr (s2l "2")); ((s2l "]"), LNone)]);
  ([37;73;47;32;32;32;32;102;111;111;10;32;49;9;32;50;32;32;47], [((s2l "%I["), LNone); ((s2l "string"), LStr (s2l "foo")); ((s2l "string"), LStr (s2l "1")); ((s2l "string"), LStr (s2l "2")); ((s2l "]"), LNone)]);
  ([37;73;124;32;32;32;32;102;111;111;10;32;49;9;32;50;32;32;124], [((s2l "%I["), LNone); ((s2l "string"), LStr (s2l "foo")); ((s2l "string"), LStr (s2l "1")); ((s2l "string"), LStr (s2l "2")); ((s2l "]"), LNone)]);
  ((s2l "defx = 1"), [((s2l "name"), LStr (s2l "defx")); ((s2l "="), LNone); ((s2l "fixnum"), LInt 1)]);
  ([102;111;111;92;10;49], [((s2l "name"), LStr (s2l "foo")); ((s2l "fixnum"), LInt 1)]);
  ((s2l "1/2"), [((s2l "fixnum"), LInt 1); ((s2l "/"), LNone); ((s2l "fixnum"), LInt 2)]);
  ((s2l "1 / 2"), [((s2l "fixnum"), LInt 1); ((s2l "/"), LNone); ((s2l "fixnum"), LInt 2)]);
  ((s2l "1 / 2 / 3"), [((s2l "fixnum"), LInt 1); ((s2l "/"), LNone); ((s2l "fixnum"), LInt 2); ((s2l "/"), LNone); ((s2l "fixnum"), LInt 3)]);
  ((s2l "foo / 2"), [((s2l "name"), LStr (s2l "foo")); ((s2l "/"), LNone); ((s2l "fixnum"), LInt 2)]);
  ((s2l "foo /2/"), [((s2l "name"), LStr (s2l "foo")); ((s2l "dregx"), LNone); ((s2l "string"), LStr (s2l "2")); ((s2l "dregxend"), LNone)]);
  ((s2l "foo/2"), [((s2l "name"), LStr (s2l "foo")); ((s2l "/"), LNone); ((s2l "fixnum"), LInt 2)]);
  ((s2l "foo( /2/ )"), [((s2l "name"), LStr (s2l "foo")); ((s2l "("), LNone); ((s2l "dregx"), LNone); ((s2l "string"), LStr (s2l "2")); ((s2l "dregxend"), LNone); ((s2l ")"), LNone)]);
  ((s2l "foo 1,/2/"), [((s2l "name"), LStr (s2l "foo")); ((s2l "fixnum"), LInt 1); ((s2l ","), LNone); ((s2l "dregx"), LNone); ((s2l "string"), LStr (s2l "2")); ((s2l "dregxend"), LNone)]);
  ((s2l "foo = / /"), [((s2l "name"), LStr (s2l "foo")); ((s2l "="), LNone); ((s2l "dregx"), LNone); ((s2l "string"), LStr (s2l " ")); ((s2l "dregxend"), LNone)]);
  ((s2l "!/foo/"), [((s2l "!"), LNone); ((s2l "dregx"), LNone); ((s2l "string"), LStr (s2l "foo")); ((s2l "dregxend"), LNone)]);
  ((s2l "|foo| /=/"), [((s2l "|"), LNone); ((s2l "name"), LStr (s2l "foo")); ((s2l "|"), LNone); ((s2l "dregx"), LNone); ((s2l "string"), LStr (s2l "=")); ((s2l "dregxend"), LNone)]);
  ((s2l "//mix"), [((s2l "dregx"), LNone); ((s2l "string"), LStr (s2l "")); ((s2l "dregxend"), LStr (s2l "mix"))]);
  ((s2l "/foo/"), [((s2l "dregx"), LNone); ((s2l "string"), LStr (s2l "foo")); ((s2l "dregxend"), LNone)]);
  ([35;32;102;111;111;10;47;98;97;114;47], [((s2l "dregx"), LNone); ((s2l "string"), LStr (s2l "bar")); ((s2l "dregxend"), LNone)]);
  ((s2l "/\/\*\/\n/"), [((s2l "dregx"), LNone); ((s2l "string"), LStr (s2l "/\*/\n")); ((s2l "dregxend"), LNone)]);
  ((s2l "/foo #{1+1} bar/"), [((s2l "dregx"), LNone); ((s2l "string"), LStr (s2l "foo ")); ((s2l "evstr"), LNone); ((s2l "fixnum"), LInt 1); ((s2l "+"), LNone); ((s2l "fixnum"), LInt 1); ((s2l "evstrend"), LNone); ((s2l "string"), LStr (s2l " bar")); ((s2l "dregxend"), LNone)]);
  ((s2l "foo =~ /=$/"), [((s2l "name"), LStr (s2l "foo")); ((s2l "=~"), LNone); ((s2l "dregx"), LNone); ((s2l "string"), LStr (s2l "=$")); ((s2l "dregxend"), LNone)]);
  ((s2l "/^$(.)[.]{1}.*.+.?\^\$\.\(\)\[\]\{\}\w\W\d\D\h\H\s\S\R\*\+\?/"), [((s2l "dregx"), LNone); ((s2l "string"), LStr (s2l "^$(.)[.]{1}.*.+.?\^\$\.\(\)\[\]\{\}\w\W\d\D\h\H\s\S\R\*\+\?")); ((s2l "dregxend"), LNone)]);
  ((s2l "/\n\\n/"), [((s2l "dregx"), LNone); ((s2l "string"), LStr (s2l "\n\\n")); ((s2l "dregxend"), LNone)]);
  ((s2l "/\&\a\b/"), [((s2l "dregx"), LNone); ((s2l "string"), LStr (s2l "\&\a\b")); ((s2l "dregxend"), LNone)]);
  ((s2l "%r/a|b|c/"), [((s2l "dregx"), LNone); ((s2l "string"), LStr (s2l "a|b|c")); ((s2l "dregxend"), LNone)]);
  ((s2l "%r{a/b/c}"), [((s2l "dregx"), LNone); ((s2l "string"), LStr (s2l "a/b/c")); ((s2l "dregxend"), LNone)]);
  ((s2l "%r(a/b/c)"), [((s2l "dregx"), LNone); ((s2l "string"), LStr (s2l "a/b/c")); ((s2l "dregxend"), LNone)]);
  ((s2l "%r[a/b/c]"), [((s2l "dregx"), LNone); ((s2l "string"), LStr (s2l "a/b/c")); ((s2l "dregxend"), LNone)]);
  ((s2l "%r<a/b/c>"), [((s2l "dregx"), LNone); ((s2l "string"), LStr (s2l "a/b/c")); ((s2l "dregxend"), LNone)]);
  ((s2l "?"), [((s2l "?"), LNone)]);
  ((s2l ":"), [((s2l ":"), LNone)]);
  ((s2l "100000000000000000000 0d100000000000000000000 0xFFFFFFFFFFFFFFFF 0o7777777777777777777777 0b1111111111111111111111111111111111111111111111111111111111111111"), [((s2l "bignum"), LStr (s2l "100000000000000000000")); ((s2l "bignum"), LStr (s2l "100000000000000000000")); ((s2l "bignum"), LStr (s2l "0xFFFFFFFFFFFFFFFF")); ((s2l "bignum"), LStr (s2l "0o7777777777777777777777")); ((s2l "bignum"), LStr (s2l "0b1111111111111111111111111111111111111111111111111111111111111111"))]);
  ((s2l "18446744073709551627"), [((s2l "bignum"), LStr (s2l "18446744073709551627"))]);
  ((s2l "1 123 +1 -456 - 0 100_000_000 0d5 0D6 0o10 0O11 0777 07654321 0xff 0XFF 0b110 0B111"), [((s2l "fixnum"), LInt 1); ((s2l "fixnum"), LInt 123); ((s2l "+"), LNone); ((s2l "fixnum"), LInt 1); ((s2l "-"), LNone); ((s2l "fixnum"), LInt 456); ((s2l "-"), LNone); ((s2l "fixnum"), LInt 0); ((s2l "fixnum"), LInt 100000000); ((s2l "fixnum"), LInt 5); ((s2l "fixnum"), LInt 6); ((s2l "fixnum"), LInt 8); ((s2l "fixnum"), LInt 9); ((s2l "fixnum"), LInt 511); ((s2l "fixnum"), LInt 2054353); ((s2l "fixnum"), LInt 255); ((s2l "fixnum"), LInt 255); ((s2l "fixnum"), LInt 6); ((s2l "fixnum"), LInt 7)]);
  ((s2l "1, (123)"), [((s2l "fixnum"), LInt 1); ((s2l ","), LNone); ((s2l "("), LNone); ((s2l "fixnum"), LInt 123); ((s2l ")"), LNone)]);
  ((s2l "1x"), [((s2l "fixnum"), LInt 1); ((s2l "name"), LStr (s2l "x"))]);
  ((s2l "123while"), [((s2l "fixnum"), LInt 123); ((s2l "while"), LNone)]);
  ((s2l "0xefor"), [((s2l "fixnum"), LInt 239); ((s2l "or"), LNone)]);
  ((s2l "3i"), [((s2l "fixnum"), LInt 3); ((s2l "complex"), LNone)]);
  ((s2l "3r"), [((s2l "fixnum"), LInt 3); ((s2l "rational"), LNone)]);
  ((s2l "3ri"), [((s2l "fixnum"), LInt 3); ((s2l "rational_complex"), LNone)]);
  ((s2l "0d3i"), [((s2l "fixnum"), LInt 3); ((s2l "complex"), LNone)]);
  ((s2l "0d3r"), [((s2l "fixnum"), LInt 3); ((s2l "rational"), LNone)]);
  ((s2l "0d3ri"), [((s2l "fixnum"), LInt 3); ((s2l "rational_complex"), LNone)]);
  ((s2l "0o3i"), [((s2l "fixnum"), LInt 3); ((s2l "complex"), LNone)]);
  ((s2l "0o3r"), [((s2l "fixnum"), LInt 3); ((s2l "rational"), LNone)]);
  ((s2l "0o3ri"), [((s2l "fixnum"), LInt 3); ((s2l "rational_complex"), LNone)]);
  ((s2l "0x3i"), [((s2l "fixnum"), LInt 3); ((s2l "complex"), LNone)]);
  ((s2l "0x3r"), [((s2l "fixnum"), LInt 3); ((s2l "rational"), LNone)]);
  ((s2l "0x3ri"), [((s2l "fixnum"), LInt 3); ((s2l "rational_complex"), LNone)]);
  ((s2l "0b11i"), [((s2l "fixnum"), LInt 3); ((s2l "complex"), LNone)]);
  ((s2l "0b11r"), [((s2l "fixnum"), LInt 3); ((s2l "rational"), LNone)]);
  ((s2l "0b11ri"), [((s2l "fixnum"), LInt 3); ((s2l "rational_complex"), LNone)]);
  ((s2l "1.1i"), [((s2l "float"), LFloat); ((s2l "complex"), LNone)]);
  ((s2l "1.1r"), [((s2l "float"), LFloat); ((s2l "rational"), LNone)]);
  ((s2l "1.1ri"), [((s2l "float"), LFloat); ((s2l "rational_complex"), LNone)]);
  ((s2l "100000000000000000000i"), [((s2l "bignum"), LStr (s2l "100000000000000000000")); ((s2l "complex"), LNone)]);
  ((s2l "100000000000000000000r"), [((s2l "bignum"), LStr (s2l "100000000000000000000")); ((s2l "rational"), LNone)]);
  ((s2l "100000000000000000000ri"), [((s2l "bignum"), LStr (s2l "100000000000000000000")); ((s2l "rational_complex"), LNone)]);
  ((s2l "3ir"), [((s2l "fixnum"), LInt 3); ((s2l "name"), LStr (s2l "ir"))]);
  ((s2l "0d3ir"), [((s2l "fixnum"), LInt 3); ((s2l "name"), LStr (s2l "ir"))]);
  ((s2l "0o3ir"), [((s2l "fixnum"), LInt 3); ((s2l "name"), LStr (s2l "ir"))]);
  ((s2l "0x3ir"), [((s2l "fixnum"), LInt 3); ((s2l "name"), LStr (s2l "ir"))]);
  ((s2l "0b1ir"), [((s2l "fixnum"), LInt 1); ((s2l "name"), LStr (s2l "ir"))]);
  ((s2l "1.1ir"), [((s2l "float"), LFloat); ((s2l "name"), LStr (s2l "ir"))]);
  ((s2l "100000000000000000000ir"), [((s2l "bignum"), LStr (s2l "100000000000000000000")); ((s2l "name"), LStr (s2l "ir"))]);
  ((s2l "123if"), [((s2l "fixnum"), LInt 123); ((s2l "if"), LNone)]);
  ((s2l "1.1if"), [((s2l "float"), LFloat); ((s2l "if"), LNone)]);
  ((s2l "100000000000000000000if"), [((s2l "bignum"), LStr (s2l "100000000000000000000")); ((s2l "if"), LNone)]);
  ((s2l "1.234"), [((s2l "float"), LFloat)]);
  ((s2l "-1.234"), [((s2l "-"), LNone); ((s2l "float"), LFloat)]);
  ((s2l "0.1"), [((s2l "float"), LFloat)]);
  ((s2l "-0.1"), [((s2l "-"), LNone); ((s2l "float"), LFloat)]);
  ((s2l "123_456.00"), [((s2l "float"), LFloat)]);
  ((s2l "0.95"), [((s2l "float"), LFloat)]);
  ((s2l "2e5"), [((s2l "float"), LFloat)]);
  ((s2l "2e+5"), [((s2l "float"), LFloat)]);
  ((s2l "2.1E-5"), [((s2l "float"), LFloat)]);
  ((s2l "1.0if"), [((s2l "float"), LFloat); ((s2l "if"), LNone)]);
  ((s2l "?a"), [((s2l "string"), LStr (s2l "a"))]);
  ([63;97;10], [((s2l "string"), LStr (s2l "a")); ([10], LNone)]);
  ((s2l "?? "), [((s2l "string"), LStr (s2l "?"))]);
  ((s2l "?:"), [((s2l "string"), LStr (s2l ":"))]);
  ((s2l "?\7 ?\77 ?\777"), [((s2l "string"), LStr [7]); ((s2l "string"), LStr (s2l "?")); ((s2l "string"), LStr [255])]);
  ((s2l "?\x77 ?\xaB"), [((s2l "string"), LStr (s2l "w")); ((s2l "string"), LStr [171])]);
  ((s2l "?\u7777 ?\uabcd"), [((s2l "string"), LStr [231;157;183]); ((s2l "string"), LStr [234;175;141])]);
  ((s2l "?\u{0066}"), [((s2l "string"), LStr (s2l "f"))]);
  ((s2l """foo"""), [((s2l "dstr"), LNone); ((s2l "string"), LStr (s2l "foo")); ((s2l "dstrend"), LNone)]);
  ((s2l """this is \""quoted\"""""), [((s2l "dstr"), LNone); ((s2l "string"), LStr (s2l "this is ""quoted""")); ((s2l "dstrend"), LNone)]);
  ((s2l "'foo'"), [((s2l "string"), LStr (s2l "foo"))]);
  ((s2l "'this is \'quoted\''"), [((s2l "string"), LStr (s2l "this is 'quoted'"))]);
  ((s2l """\t\n"""), [((s2l "dstr"), LNone); ((s2l "string"), LStr [9;10]); ((s2l "dstrend"), LNone)]);
  ((s2l "'other escaped chars \\ \n'"), [((s2l "string"), LStr (s2l "other escaped chars \ \n"))]);
  ((s2l "'foo'if"), [((s2l "string"), LStr (s2l "foo")); ((s2l "if"), LNone)]);
  ((s2l """foo""if"), [((s2l "dstr"), LNone); ((s2l "string"), LStr (s2l "foo")); ((s2l "dstrend"), LNone); ((s2l "if"), LNone)]);
  ((s2l """#{:foo} bar #{1 + 1}"""), [((s2l "dstr"), LNone); ((s2l "evstr"), LNone); ((s2l "symbol"), LStr (s2l "foo")); ((s2l "evstrend"), LNone); ((s2l "string"), LStr (s2l " bar ")); ((s2l "evstr"), LNone); ((s2l "fixnum"), LInt 1); ((s2l "+"), LNone); ((s2l "fixnum"), LInt 1); ((s2l "evstrend"), LNone); ((s2l "dstrend"), LNone)]);
  ((s2l """foo#{''}bar"""), [((s2l "dstr"), LNone); ((s2l "string"), LStr (s2l "foo")); ((s2l "evstr"), LNone); ((s2l "string"), LStr (s2l "")); ((s2l "evstrend"), LNone); ((s2l "string"), LStr (s2l "bar")); ((s2l "dstrend"), LNone)]);
  ((s2l """#{1}#{2}"""), [((s2l "dstr"), LNone); ((s2l "evstr"), LNone); ((s2l "fixnum"), LInt 1); ((s2l "evstrend"), LNone); ((s2l "evstr"), LNone); ((s2l "fixnum"), LInt 2); ((s2l "evstrend"), LNone); ((s2l "dstrend"), LNone)]);
  ((s2l """foo #{1 + 2} bar"""), [((s2l "dstr"), LNone); ((s2l "string"), LStr (s2l "foo ")); ((s2l "evstr"), LNone); ((s2l "fixnum"), LInt 1); ((s2l "+"), LNone); ((s2l "fixnum"), LInt 2); ((s2l "evstrend"), LNone); ((s2l "string"), LStr (s2l " bar")); ((s2l "dstrend"), LNone)]);
  ((s2l """#{foo { 1 }}"""), [((s2l "dstr"), LNone); ((s2l "evstr"), LNone); ((s2l "name"), LStr (s2l "foo")); ((s2l "{"), LNone); ((s2l "fixnum"), LInt 1); ((s2l "}"), LNone); ((s2l "evstrend"), LNone); ((s2l "dstrend"), LNone)]);
  ((s2l "%{ { #{ 1 } } }"), [((s2l "dstr"), LNone); ((s2l "string"), LStr (s2l " { ")); ((s2l "evstr"), LNone); ((s2l "fixnum"), LInt 1); ((s2l "evstrend"), LNone); ((s2l "string"), LStr (s2l " } ")); ((s2l "dstrend"), LNone)]);
  ((s2l "%{ { #{ ""#{1}"" } } }"), [((s2l "dstr"), LNone); ((s2l "string"), LStr (s2l " { ")); ((s2l "evstr"), LNone); ((s2l "dstr"), LNone); ((s2l "evstr"), LNone); ((s2l "fixnum"), LInt 1); ((s2l "evstrend"), LNone); ((s2l "dstrend"), LNone); ((s2l "evstrend"), LNone); ((s2l "string"), LStr (s2l " } ")); ((s2l "dstrend"), LNone)]);
  ((s2l "%Q[foo [#{bar}] baz]"), [((s2l "dstr"), LNone); ((s2l "string"), LStr (s2l "foo [")); ((s2l "evstr"), LNone); ((s2l "name"), LStr (s2l "bar")); ((s2l "evstrend"), LNone); ((s2l "string"), LStr (s2l "] baz")); ((s2l "dstrend"), LNone)]);
  ((s2l """\7 \77 \777"""), [((s2l "dstr"), LNone); ((s2l "string"), LStr [7;32;63;32;255]); ((s2l "dstrend"), LNone)]);
  ((s2l """\x77 \xaB"""), [((s2l "dstr"), LNone); ((s2l "string"), LStr [119;32;171]); ((s2l "dstrend"), LNone)]);
  ((s2l """\u7777 \uabcd"""), [((s2l "dstr"), LNone); ((s2l "string"), LStr [231;157;183;32;234;175;141]); ((s2l "dstrend"), LNone)]);
  ((s2l """\u{0066 06f 6F}"""), [((s2l "dstr"), LNone); ((s2l "string"), LStr (s2l "foo")); ((s2l "dstrend"), LNone)]);
  ((s2l "`ls`"), [((s2l "dxstr"), LNone); ((s2l "string"), LStr (s2l "ls")); ((s2l "dxstrend"), LNone)]);
  ((s2l "%x(ls)"), [((s2l "dxstr"), LNone); ((s2l "string"), LStr (s2l "ls")); ((s2l "dxstrend"), LNone)]);
  ((s2l "%x(ls #{path})"), [((s2l "dxstr"), LNone); ((s2l "string"), LStr (s2l "ls ")); ((s2l "evstr"), LNone); ((s2l "name"), LStr (s2l "path")); ((s2l "evstrend"), LNone); ((s2l "dxstrend"), LNone)]);
  ((s2l ":""foo\nbar"""), [((s2l "dsym"), LNone); ((s2l "string"), LStr [102;111;111;10;98;97;114]); ((s2l "dsymend"), LNone)]);
  ((s2l ":""foo#{1+1}"""), [((s2l "dsym"), LNone); ((s2l "string"), LStr (s2l "foo")); ((s2l "evstr"), LNone); ((s2l "fixnum"), LInt 1); ((s2l "+"), LNone); ((s2l "fixnum"), LInt 1); ((s2l "evstrend"), LNone); ((s2l "dsymend"), LNone)]);
  ((s2l "['foo']"), [((s2l "["), LNone); ((s2l "string"), LStr (s2l "foo")); ((s2l "]"), LNone)]);
  ((s2l "['foo', 1]"), [((s2l "["), LNone); ((s2l "string"), LStr (s2l "foo")); ((s2l ","), LNone); ((s2l "fixnum"), LInt 1); ((s2l "]"), LNone)]);
  ((s2l "%W[1 foo#{1 + 1} 3]"), [((s2l "%W["), LNone); ((s2l "string"), LStr (s2l "1")); ((s2l "dstr"), LNone); ((s2l "string"), LStr (s2l "foo")); ((s2l "evstr"), LNone); ((s2l "fixnum"), LInt 1); ((s2l "+"), LNone); ((s2l "fixnum"), LInt 1); ((s2l "evstrend"), LNone); ((s2l "dstrend"), LNone); ((s2l "string"), LStr (s2l "3")); ((s2l "]"), LNone)]);
  ((s2l "%W[1 foo#{1 + 1}bar 3]"), [((s2l "%W["), LNone); ((s2l "string"), LStr (s2l "1")); ((s2l "dstr"), LNone); ((s2l "string"), LStr (s2l "foo")); ((s2l "evstr"), LNone); ((s2l "fixnum"), LInt 1); ((s2l "+"), LNone); ((s2l "fixnum"), LInt 1); ((s2l "evstrend"), LNone); ((s2l "string"), LStr (s2l "bar")); ((s2l "dstrend"), LNone); ((s2l "string"), LStr (s2l "3")); ((s2l "]"), LNone)]);
  ((s2l "%W[#{1}foo]"), [((s2l "%W["), LNone); ((s2l "dstr"), LNone); ((s2l "string"), LStr (s2l "")); ((s2l "evstr"), LNone); ((s2l "fixnum"), LInt 1); ((s2l "evstrend"), LNone); ((s2l "string"), LStr (s2l "foo")); ((s2l "dstrend"), LNone); ((s2l "]"), LNone)]);
  ((s2l "%W[#{1+1}]"), [((s2l "%W["), LNone); ((s2l "dstr"), LNone); ((s2l "string"), LStr (s2l "")); ((s2l "evstr"), LNone); ((s2l "fixnum"), LInt 1); ((s2l "+"), LNone); ((s2l "fixnum"), LInt 1); ((s2l "evstrend"), LNone); ((s2l "dstrend"), LNone); ((s2l "]"), LNone)]);
  ((s2l "%w[1 #{1 + 1} 3]"), [((s2l "%w["), LNone); ((s2l "string"), LStr (s2l "1")); ((s2l "string"), LStr (s2l "#{1")); ((s2l "string"), LStr (s2l "+")); ((s2l "string"), LStr (s2l "1}")); ((s2l "string"), LStr (s2l "3")); ((s2l "]"), LNone)]);
  ((s2l "%i[ [] []= ]"), [((s2l "%i["), LNone); ((s2l "string"), LStr (s2l "[]")); ((s2l "string"), LStr (s2l "[]=")); ((s2l "]"), LNone)]);
  ((s2l "%i(foo#{1} bar)"), [((s2l "%i["), LNone); ((s2l "string"), LStr (s2l "foo#{1}")); ((s2l "string"), LStr (s2l "bar")); ((s2l "]"), LNone)]);
  ((s2l "%I(foo#{1} bar)"), [((s2l "%I["), LNone); ((s2l "dstr"), LNone); ((s2l "string"), LStr (s2l "foo")); ((s2l "evstr"), LNone); ((s2l "fixnum"), LInt 1); ((s2l "evstrend"), LNone); ((s2l "dstrend"), LNone); ((s2l "string"), LStr (s2l "bar")); ((s2l "]"), LNone)]);
  ((s2l "{ 'foo' => 1, bar: 2 }"), [((s2l "{"), LNone); ((s2l "string"), LStr (s2l "foo")); ((s2l "=>"), LNone); ((s2l "fixnum"), LInt 1); ((s2l ","), LNone); ((s2l "symbol_key"), LStr (s2l "bar")); ((s2l "fixnum"), LInt 2); ((s2l "}"), LNone)]);
  ((s2l "foo a: b"), [((s2l "name"), LStr (s2l "foo")); ((s2l "symbol_key"), LStr (s2l "a")); ((s2l "name"), LStr (s2l "b"))]);
  ((s2l "foo self: a"), [((s2l "name"), LStr (s2l "foo")); ((s2l "symbol_key"), LStr (s2l "self")); ((s2l "name"), LStr (s2l "a"))]);
  ((s2l "foo 'a': 'b'"), [((s2l "name"), LStr (s2l "foo")); ((s2l "symbol_key"), LStr (s2l "a")); ((s2l "string"), LStr (s2l "b"))]);
  ((s2l "foo 'a':'b'"), [((s2l "name"), LStr (s2l "foo")); ((s2l "symbol_key"), LStr (s2l "a")); ((s2l "string"), LStr (s2l "b"))]);
  ((s2l "foo ""a"": 'b'"), [((s2l "name"), LStr (s2l "foo")); ((s2l "dstr"), LNone); ((s2l "string"), LStr (s2l "a")); ((s2l "dstrend"), LNone); ((s2l "dstr_symbol_key"), LNone); ((s2l "string"), LStr (s2l "b"))]);
  ((s2l "foo ""a"":'b'"), [((s2l "name"), LStr (s2l "foo")); ((s2l "dstr"), LNone); ((s2l "string"), LStr (s2l "a")); ((s2l "dstrend"), LNone); ((s2l "dstr_symbol_key"), LNone); ((s2l "string"), LStr (s2l "b"))]);
  ((s2l "foo:bar"), [((s2l "name"), LStr (s2l "foo")); ((s2l "symbol"), LStr (s2l "bar"))]);
  ((s2l "p foo:bar"), [((s2l "name"), LStr (s2l "p")); ((s2l "symbol_key"), LStr (s2l "foo")); ((s2l "name"), LStr (s2l "bar"))]);
  ((s2l "Foo::Bar :baz"), [((s2l "constant"), LStr (s2l "Foo")); ((s2l "::"), LNone); ((s2l "constant"), LStr (s2l "Bar")); ((s2l "symbol"), LStr (s2l "baz"))]);
  ((s2l "Foo::Bar:baz"), [((s2l "constant"), LStr (s2l "Foo")); ((s2l "::"), LNone); ((s2l "constant"), LStr (s2l "Bar")); ((s2l "symbol"), LStr (s2l "baz"))]);
  ([109;111;111;240;159;144;132;32;61;32;49], [((s2l "name"), LStr [109;111;111;240;159;144;132]); ((s2l "="), LNone); ((s2l "fixnum"), LInt 1)]);
  ([111;111;116;112;195;188;116;32;61;32;49], [((s2l "name"), LStr [111;111;116;112;195;188;116]); ((s2l "="), LNone); ((s2l "fixnum"), LInt 1)]);
  ((s2l "@@foo"), [((s2l "cvar"), LStr (s2l "@@foo"))]);
  ((s2l "@@foo?"), [((s2l "cvar"), LStr (s2l "@@foo")); ((s2l "?"), LNone)]);
  ((s2l "@@foo!"), [((s2l "cvar"), LStr (s2l "@@foo")); ((s2l "!"), LNone)]);
  ((s2l "@foo"), [((s2l "ivar"), LStr (s2l "@foo"))]);
  ((s2l "@foo?"), [((s2l "ivar"), LStr (s2l "@foo")); ((s2l "?"), LNone)]);
  ((s2l "@foo!"), [((s2l "ivar"), LStr (s2l "@foo")); ((s2l "!"), LNone)]);
  ((s2l "$foo"), [((s2l "gvar"), LStr (s2l "$foo"))]);
  ((s2l "$foo?"), [((s2l "gvar"), LStr (s2l "$foo")); ((s2l "?"), LNone)]);
  ((s2l "$foo!"), [((s2l "gvar"), LStr (s2l "$foo")); ((s2l "!"), LNone)]);
  ((s2l "$0"), [((s2l "gvar"), LStr (s2l "$0"))]);
  ((s2l "$__a"), [((s2l "gvar"), LStr (s2l "$__a"))]);
  ((s2l "$&"), [((s2l "back_ref"), LStr (s2l "&"))]);
  ((s2l "$1"), [((s2l "nth_ref"), LInt 1)]);
  ((s2l "$12"), [((s2l "nth_ref"), LInt 12)]);
  ((s2l "foo.bar"), [((s2l "name"), LStr (s2l "foo")); ((s2l "."), LNone); ((s2l "name"), LStr (s2l "bar"))]);
  ((s2l "foo . bar"), [((s2l "name"), LStr (s2l "foo")); ((s2l "."), LNone); ((s2l "name"), LStr (s2l "bar"))]);
  ([102;111;111;10;98;97;114], [((s2l "name"), LStr (s2l "foo")); ([10], LNone); ((s2l "name"), LStr (s2l "bar"))]);
  ([102;111;111;32;10;32;98;97;114], [((s2l "name"), LStr (s2l "foo")); ([10], LNone); ((s2l "name"), LStr (s2l "bar"))]);
  ([102;111;111;40;10;49;10;41], [((s2l "name"), LStr (s2l "foo")); ((s2l "("), LNone); ((s2l "fixnum"), LInt 1); ((s2l ")"), LNone)]);
  ((s2l "-> { }"), [((s2l "->"), LNone); ((s2l "{"), LNone); ((s2l "}"), LNone)]);
  ((s2l "->(x) { }"), [((s2l "->"), LNone); ((s2l "("), LNone); ((s2l "name"), LStr (s2l "x")); ((s2l ")"), LNone); ((s2l "{"), LNone); ((s2l "}"), LNone)]);
  ([102;111;111;32;100;111;32;124;120;44;32;121;124;10;120;10;101;110;100], [((s2l "name"), LStr (s2l "foo")); ((s2l "do"), LNone); ((s2l "|"), LNone); ((s2l "name"), LStr (s2l "x")); ((s2l ","), LNone); ((s2l "name"), LStr (s2l "y")); ((s2l "|"), LNone); ((s2l "name"), LStr (s2l "x")); ([10], LNone); ((s2l "end"), LNone)]);
  ((s2l "foo { |x, y| x }"), [((s2l "name"), LStr (s2l "foo")); ((s2l "{"), LNone); ((s2l "|"), LNone); ((s2l "name"), LStr (s2l "x")); ((s2l ","), LNone); ((s2l "name"), LStr (s2l "y")); ((s2l "|"), LNone); ((s2l "name"), LStr (s2l "x")); ((s2l "}"), LNone)]);
  ((s2l "def foo()"), [((s2l "def"), LNone); ((s2l "name"), LStr (s2l "foo")); ((s2l "("), LNone); ((s2l ")"), LNone)]);
  ((s2l "def foo?"), [((s2l "def"), LNone); ((s2l "name"), LStr (s2l "foo?"))]);
  ((s2l "def foo!"), [((s2l "def"), LNone); ((s2l "name"), LStr (s2l "foo!"))]);
  ((s2l "def foo="), [((s2l "def"), LNone); ((s2l "name"), LStr (s2l "foo="))]);
  ((s2l "def self.foo="), [((s2l "def"), LNone); ((s2l "self"), LNone); ((s2l "."), LNone); ((s2l "name"), LStr (s2l "foo="))]);
  ((s2l "def /"), [((s2l "def"), LNone); ((s2l "/"), LNone)]);
  ((s2l "def %(x)"), [((s2l "def"), LNone); ((s2l "%"), LNone); ((s2l "("), LNone); ((s2l "name"), LStr (s2l "x")); ((s2l ")"), LNone)]);
  ((s2l "def self.%(x)"), [((s2l "def"), LNone); ((s2l "self"), LNone); ((s2l "."), LNone); ((s2l "%"), LNone); ((s2l "("), LNone); ((s2l "name"), LStr (s2l "x")); ((s2l ")"), LNone)]);
  ((s2l "foo.bar="), [((s2l "name"), LStr (s2l "foo")); ((s2l "."), LNone); ((s2l "name"), LStr (s2l "bar")); ((s2l "="), LNone)]);
  ((s2l "foo::bar!"), [((s2l "name"), LStr (s2l "foo")); ((s2l "::"), LNone); ((s2l "name"), LStr (s2l "bar!"))]);
  ((s2l "Foo::bar!"), [((s2l "constant"), LStr (s2l "Foo")); ((s2l "::"), LNone); ((s2l "name"), LStr (s2l "bar!"))]);
  ((s2l "bar=1"), [((s2l "name"), LStr (s2l "bar")); ((s2l "="), LNone); ((s2l "fixnum"), LInt 1)]);
  ((s2l "nil?"), [((s2l "name"), LStr (s2l "nil?"))]);
  ((s2l "foo.nil?"), [((s2l "name"), LStr (s2l "foo")); ((s2l "."), LNone); ((s2l "name"), LStr (s2l "nil?"))]);
  ((s2l "def `"), [((s2l "def"), LNone); ((s2l "operator"), LStr (s2l "`"))]);
  ((s2l "foo.`"), [((s2l "name"), LStr (s2l "foo")); ((s2l "."), LNone); ((s2l "operator"), LStr (s2l "`"))]);
  ((s2l "def self"), [((s2l "def"), LNone); ((s2l "name"), LStr (s2l "self"))]);
  ((s2l "def def"), [((s2l "def"), LNone); ((s2l "name"), LStr (s2l "def"))]);
  ((s2l "def while"), [((s2l "def"), LNone); ((s2l "name"), LStr (s2l "while"))]);
  ((s2l "foo.%(x)"), [((s2l "name"), LStr (s2l "foo")); ((s2l "."), LNone); ((s2l "%"), LNone); ((s2l "("), LNone); ((s2l "name"), LStr (s2l "x")); ((s2l ")"), LNone)]);
  ((s2l "undef +@, -@, `, &, ^, BEGIN, END, alias, and"), [((s2l "undef"), LNone); ((s2l "operator"), LStr (s2l "+@")); ((s2l ","), LNone); ((s2l "operator"), LStr (s2l "-@")); ((s2l ","), LNone); ((s2l "operator"), LStr (s2l "`")); ((s2l ","), LNone); ((s2l "&"), LNone); ((s2l ","), LNone); ((s2l "^"), LNone); ((s2l ","), LNone); ((s2l "constant"), LStr (s2l "BEGIN")); ((s2l ","), LNone); ((s2l "constant"), LStr (s2l "END")); ((s2l ","), LNone); ((s2l "name"), LStr (s2l "alias")); ((s2l ","), LNone); ((s2l "name"), LStr (s2l "and"))]);
  ((s2l "..."), [((s2l "..."), LNone)]);
  ((s2l "a ? '': b"), [((s2l "name"), LStr (s2l "a")); ((s2l "?"), LNone); ((s2l "string"), LStr (s2l "")); ((s2l ":"), LNone); ((s2l "name"), LStr (s2l "b"))]);
  ((s2l "a ? """": b"), [((s2l "name"), LStr (s2l "a")); ((s2l "?"), LNone); ((s2l "dstr"), LNone); ((s2l "dstrend"), LNone); ((s2l ":"), LNone); ((s2l "name"), LStr (s2l "b"))]);
  ([102;111;111;32;61;32;60;60;70;79;79;10;35;123;48;43;49;125;10;50;10;70;79;79;10;98;97;114;10], [((s2l "name"), LStr (s2l "foo")); ((s2l "="), LNone); ((s2l "dstr"), LNone); ((s2l "evstr"), LNone); ((s2l "fixnum"), LInt 0); ((s2l "+"), LNone); ((s2l "fixnum"), LInt 1); ((s2l "evstrend"), LNone); ((s2l "string"), LStr [10;50;10]); ((s2l "dstrend"), LNone); ([10], LNone); ((s2l "name"), LStr (s2l "bar")); ([10], LNone)]);
  ([102;111;111;40;49;44;32;60;60;45;70;79;79;44;32;50;41;10;32;49;10;50;10;32;32;70;79;79;10;98;97;114;10], [((s2l "name"), LStr (s2l "foo")); ((s2l "("), LNone); ((s2l "fixnum"), LInt 1); ((s2l ","), LNone); ((s2l "dstr"), LNone); ((s2l "string"), LStr [32;49;10;50;10]); ((s2l "dstrend"), LNone); ((s2l ","), LNone); ((s2l "fixnum"), LInt 2); ((s2l ")"), LNone); ([10], LNone); ((s2l "name"), LStr (s2l "bar")); ([10], LNone)]);
  ([102;111;111;40;60;60;45;70;79;79;44;32;60;60;45;66;65;82;41;10;32;49;10;50;10;32;32;70;79;79;10;32;51;10;32;52;10;66;65;82;10;98;97;122;32;60;60;45;66;65;90;10;53;10;66;65;90;10], [((s2l "name"), LStr (s2l "foo")); ((s2l "("), LNone); ((s2l "dstr"), LNone); ((s2l "string"), LStr [32;49;10;50;10]); ((s2l "dstrend"), LNone); ((s2l ","), LNone); ((s2l "dstr"), LNone); ((s2l "string"), LStr [32;51;10;32;52;10]); ((s2l "dstrend"), LNone); ((s2l ")"), LNone); ([10], LNone); ((s2l "name"), LStr (s2l "baz")); ((s2l "dstr"), LNone); ((s2l "string"), LStr [53;10]); ((s2l "dstrend"), LNone); ([10], LNone)]);
  ([99;111;100;101;32;61;32;60;60;45;66;65;90;46;103;115;117;98;40;47;92;110;47;44;32;39;59;32;39;41;10;102;111;111;10;98;97;114;10;66;65;90;10], [((s2l "name"), LStr (s2l "code")); ((s2l "="), LNone); ((s2l "dstr"), LNone); ((s2l "string"), LStr [102;111;111;10;98;97;114;10]); ((s2l "dstrend"), LNone); ((s2l "."), LNone); ((s2l "name"), LStr (s2l "gsub")); ((s2l "("), LNone); ((s2l "dregx"), LNone); ((s2l "string"), LStr (s2l "\n")); ((s2l "dregxend"), LNone); ((s2l ","), LNone); ((s2l "string"), LStr (s2l "; ")); ((s2l ")"), LNone); ([10], LNone)]);
  ([60;60;39;70;79;79;32;66;65;82;39;10;35;123;102;111;111;125;10;70;79;79;32;66;65;82], [((s2l "string"), LStr [35;123;102;111;111;125;10]); ([10], LNone)]);
  ([60;60;34;70;79;79;32;66;65;82;34;10;35;123;102;111;111;125;10;70;79;79;32;66;65;82], [((s2l "dstr"), LNone); ((s2l "evstr"), LNone); ((s2l "name"), LStr (s2l "foo")); ((s2l "evstrend"), LNone); ((s2l "string"), LStr [10]); ((s2l "dstrend"), LNone); ([10], LNone)]);
  ([60;60;96;70;79;79;32;66;65;82;96;10;35;123;102;111;111;125;10;70;79;79;32;66;65;82], [((s2l "dxstr"), LNone); ((s2l "evstr"), LNone); ((s2l "name"), LStr (s2l "foo")); ((s2l "evstrend"), LNone); ((s2l "string"), LStr [10]); ((s2l "dxstrend"), LNone); ([10], LNone)]);
  ([60;60;126;70;79;79;10;32;102;111;111;10;32;32;98;97;114;10;32;32;32;10;70;79;79], [((s2l "dstr"), LNone); ((s2l "string"), LStr [102;111;111;10;32;98;97;114;10;32;32;10]); ((s2l "dstrend"), LNone); ([10], LNone)]);
  ((s2l "x<<y"), [((s2l "name"), LStr (s2l "x")); ((s2l "<<"), LNone); ((s2l "name"), LStr (s2l "y"))]);
  ([61;98;101;103;105;110;10;115;116;117;102;102;10;61;101;110;100;10;99;108;97;115;115;32;70;111;111;59;101;110;100], [([10], LNone); ((s2l "class"), LNone); ((s2l "constant"), LStr (s2l "Foo")); ((s2l ";"), LNone); ((s2l "end"), LNone)]);
  ([61;98;101;103;105;110;10;115;116;117;102;102], []);
  ([195;171], [((s2l "name"), LStr [195;171])]);
  ([195;182;108;100], [((s2l "name"), LStr [195;182;108;100])])
].

(** All of them pass on the model. *)
Example lexer_tests_pass : forallb test lexer_tests = true.
Proof. vm_compute. reflexivity. Qed.

(** lexer_test.rb 1299-1311 (':~@' in the list above is Ruby notation for the
    symbol '~'). *)
Example lexer_positions :
  match tokens 50 (s2l "foo = 1 + 2 # comment" ++ [ch_nl] ++ s2l "# comment" ++ [ch_nl] ++ s2l "bar.baz") with
  | Ok ts => map (fun t => (tk_line t, tk_col t)) (removelast ts)
  | _ => []
  end = [(0, 0); (0, 4); (0, 6); (0, 8); (0, 10); (0, 21); (2, 0); (2, 3); (2, 4)]%nat.
Proof. vm_compute. reflexivity. Qed.

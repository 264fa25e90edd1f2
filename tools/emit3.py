import pickle,sys
sys.path.insert(0,'/tmp/work')
from rubylit import cstr
A=pickle.load(open('/tmp/work/tests.pkl','rb')); B=pickle.load(open('/tmp/work/tests2.pkl','rb'))
def entry(t):
    l,src,e=t
    return f'  ({l}, {cstr(src)}, {"None" if e is None else "Some "+e})'
out='''(** * TestsParser: the expectations of the repository's parser tests, run on the model

    These are tests, not proofs.  They were translated mechanically from
    /repo/test/parser_test.rb (the [NatalieParser] branches; forms
    [expect(parse(code)).must_equal sexp] and [must_raise SyntaxError]) and from
    /repo/test/test_ruby_parser.rb (the tests that are not skipped; forms
    [assert_parse rb, pt] and [assert_parse_error rb]).  The number is the line of
    the expectation, or of the test method.  Line numbers are compared where the
    second file gives them ([sl]).  Not compared: float values, error messages,
    encodings; and, as Ruby's [==] does, a rational inside a complex literal is not
    told from its value. *)
From Coq Require Import Strings.String NArith ZArith Bool List.
From Verif Require Import Base Token LexModel Node ParserBase ParserModel Sexp.
Import ListNotations.
Open Scope N_scope.

Definition s (l : list sexp) : sexp := Sexp 0 0 None l.
Definition sl (line : nat) (l : list sexp) : sexp := Sexp line 0 None l.

(** Actual against expected value. *)
Fixpoint agrees (x y : sexp) : bool :=
  match x, y with
  | SNil, SNil | STrue, STrue | SFalse, SFalse => true
  | SSym a, SSym b | SStr a, SStr b | SBig a, SBig b => str_eqb a b
  | SInt a, SInt b => Z.eqb a b
  | SFloat _ _, SFloat _ _ => true
  | SRange a b c, SRange a' b' c' => Z.eqb a a' && Z.eqb b b' && Bool.eqb c c'
  | SRegexp a o, SRegexp b p => str_eqb a b && (o =? p)
  | SComplex a, SComplex b | SRational a, SRational b => agrees a b
  | Sexp n _ _ l, Sexp k _ _ m =>
      (Nat.eqb k 0 || Nat.eqb n k) &&
      (fix all l m :=
         match l, m with
         | [], [] => true
         | a :: l, b :: m => agrees a b && all l m
         | _, _ => false
         end) l m
  | _, _ => false
  end.

Definition passes (t : N * str * option sexp) : bool :=
  match t with
  | (_, src, expected) =>
      match parse 5000 (s2l "(string)") src, expected with
      | Parsed x, Some e => agrees x e
      | SyntaxError _, None => true
      | _, _ => false
      end
  end.

'''
for name,f,ts in (('parser_test','parser_test.rb',A),('ruby_parser','test_ruby_parser.rb',B)):
    n=150
    for k in range(0,len(ts),n):
        out+=f'(** /repo/test/{f}, lines {ts[k][0]}-{ts[min(k+n,len(ts))-1][0]}. *)\nDefinition {name}_{k//n} : list (N * str * option sexp) := [\n'+';\n'.join(entry(t) for t in ts[k:k+n])+f'].\nExample {name}_{k//n}_passes : forallb passes {name}_{k//n} = true.\nProof. vm_compute. reflexivity. Qed.\n\n'
open('/verif/rocq/theories/TestsParser.v','w').write(out)

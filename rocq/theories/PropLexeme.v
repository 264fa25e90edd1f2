(** * PropLexeme: texts of words, numbers, punctuation, symbols and strings *)
From Coq Require Import Strings.String NArith ZArith Bool Arith List.
From Verif Require Import Node ParserBase ParserModel Sexp.
From Verif Require Import Base Token Spec SpecLit SpecLexeme LexModel LexText LexFine.
Import ListNotations.
Open Scope list_scope.
Open Scope N_scope.

(** ** C32: a text has the tokens its elements stand for *)

Theorem C32_tokens : forall items tail fuel,
  fine start items tail -> hd 0 (written items tail) <> 0xEF -> (length items < fuel)%nat ->
  tokens fuel (written items tail) = Ok (tokens_of items tail).
Proof. exact text_tokens. Qed.

(** A method definition over several lines, with a comment. *)
Definition program : list (str * lexeme) :=
  [ (s2l "", L_keyword (s2l "def") T_DefKeyword); (s2l " ", L_name (s2l "size") (s2l "=")); (s2l "", L_punct (s2l "(") T_LParen); (s2l "", L_name (s2l "a") []); (s2l "", L_punct (s2l ",") T_Comma);
    (s2l " ", L_key (s2l "by") []); (s2l " ", L_int (s2l "12") (s2l "1_2")); (s2l "", L_punct (s2l ")") T_RParen); (s2l "", L_newline);
    (s2l "  ", L_ivar (s2l "x")); (s2l " ", L_punct (s2l "||=") T_PipePipeEqual); (s2l " ", L_name (s2l "a") []); (s2l "", L_punct (s2l ".") T_Dot); (s2l "", L_name (s2l "class") []); (s2l "", L_punct (s2l "::") T_ConstantResolution); (s2l "", L_name (s2l "MAX") []);
    (s2l "", L_newline); (s2l "    ", L_punct (s2l ".") T_Dot); (s2l "", L_name (s2l "map") []); (s2l " ", L_punct (s2l "{") T_LCurlyBrace); (s2l " ", L_punct (s2l "|") T_Pipe); (s2l "", L_name (s2l "y") []); (s2l "", L_punct (s2l "|") T_Pipe);
    (s2l " ", L_name (s2l "y") []); (s2l "", L_punct (s2l "*") T_Star); (s2l "", L_float (s2l "2") (s2l "2") (s2l "5") (s2l "5")); (s2l " ", L_punct (s2l "-") T_Minus); (s2l "", L_newline); (s2l "      ", L_name (s2l "a") []); (s2l " ", L_punct (s2l "/") T_Slash); (s2l " ", L_name (s2l "b") []);
    (s2l "", L_newline); (s2l "  ", L_punct (s2l "}") T_RCurlyBrace); (s2l "  ", L_comment (s2l " done")); (s2l "", L_newline);
    (s2l "  ", L_name (s2l "ready") (s2l "?")); (s2l " ", L_punct (s2l "?") T_TernaryQuestion); (s2l " ", L_symbol (s2l "yes") (s2l "!")); (s2l " ", L_punct (s2l ":") T_TernaryColon); (s2l " ", L_string (s2l "it's"));
    (s2l "", L_newline); (s2l "", L_keyword (s2l "end") T_EndKeyword) ].
Example C32_fine : fine start program (s2l " ") /\ hd 0 (written program (s2l " ")) <> 0xEF.
Proof. split; [apply fineb_ok; vm_compute; reflexivity|discriminate]. Qed.
Example C32_example :
  shapes (tokens_of program (s2l " ")) =
  let t x := (x, None) in
  [t T_DefKeyword; (T_BareName, Some (s2l "size=")); t T_LParen; (T_BareName, Some (s2l "a")); t T_Comma; (T_SymbolKey, Some (s2l "by")); t T_Fixnum; t T_RParen; t T_Newline;
   (T_InstanceVariable, Some (s2l "@x")); t T_PipePipeEqual; (T_BareName, Some (s2l "a")); t T_Dot; (T_BareName, Some (s2l "class")); t T_ConstantResolution; (T_Constant, Some (s2l "MAX"));
   t T_Dot; (T_BareName, Some (s2l "map")); t T_LCurlyBrace; t T_Pipe; (T_BareName, Some (s2l "y")); t T_Pipe; (T_BareName, Some (s2l "y")); t T_Star; t T_Float; t T_Minus; (T_BareName, Some (s2l "a")); t T_Slash; (T_BareName, Some (s2l "b"));
   t T_RCurlyBrace; t T_Newline; (T_BareName, Some (s2l "ready?")); t T_TernaryQuestion; (T_Symbol, Some (s2l "yes!")); t T_TernaryColon; (T_String, Some (s2l "it's"));
   t T_Newline; t T_EndKeyword; t T_Eof].
Proof. vm_compute. reflexivity. Qed.
Example C32_run : tokens 99 (written program (s2l " ")) = Ok (tokens_of program (s2l " ")).
Proof. vm_compute. reflexivity. Qed.

(** Floats with exponents, integers in other radices, special variables, characters
    and the symbols of operators and variables. *)
Definition others : list (str * lexeme) :=
  [ (s2l "", L_exp (s2l "10") (s2l "1_0") None "E"%ch [] (s2l "9") (s2l "9")); (s2l "", L_punct (s2l "-") T_Minus);
    (s2l "", L_exp (s2l "0") (s2l "0") (Some (s2l "25", s2l "2_5")) "e"%ch (s2l "-") (s2l "03") (s2l "0_3")); (s2l "", L_punct (s2l ";") T_Semicolon);
    (s2l "", L_radix "x"%ch (s2l "fF") (s2l "f_F")); (s2l "", L_punct (s2l "..") T_DotDot); (s2l "", L_radix "B"%ch (s2l "101") (s2l "101")); (s2l "", L_newline);
    (s2l "", L_radix "o"%ch (s2l "7777777777777777777777") (s2l "7777777777777777777777")); (s2l "", L_newline);
    (s2l "", L_special (s2l "!")); (s2l "", L_punct (s2l "=") T_Equal); (s2l "", L_special (s2l "-w")); (s2l "", L_punct (s2l "/") T_Slash); (s2l "", L_match);
    (s2l "", L_punct (s2l "+") T_Plus); (s2l "", L_group (s2l "12")); (s2l "", L_punct (s2l "/") T_Slash); (s2l "", L_char "a"%ch); (s2l "", L_newline);
    (s2l "", L_operator (s2l "[]=")); (s2l "", L_punct (s2l "=") T_Equal); (s2l "", L_operator (s2l "<=")); (s2l "", L_punct (s2l "=>") T_HashRocket); (s2l "", L_operator (s2l "!"));
    (s2l "", L_punct (s2l ",") T_Comma); (s2l "", L_variable (s2l "@@a")); (s2l "", L_punct (s2l ",") T_Comma); (s2l "", L_variable (s2l "$b")) ].
Example C32_others : fine start others [] /\ hd 0 (written others []) <> 0xEF.
Proof. split; [apply fineb_ok; vm_compute; reflexivity|discriminate]. Qed.
Example C32_others_tokens :
  map (fun t => (ty t, lit t, fix_ t, dbl t)) (tokens_of others []) =
  let t x := (x, None, 0%Z, []) in let l x s := (x, Some (s2l s), 0%Z, []) in
  [(T_Float, None, 0%Z, s2l "10e9"); t T_Minus; (T_Float, None, 0%Z, s2l "0.25e-03"); t T_Semicolon;
   (T_Fixnum, None, 255%Z, []); t T_DotDot; (T_Fixnum, None, 5%Z, []); t T_Newline; l T_Bignum "0o7777777777777777777777"%string; t T_Newline;
   l T_GlobalVariable "$!"%string; t T_Equal; l T_GlobalVariable "$-w"%string; t T_Slash; l T_BackRef "&"%string; t T_Plus; (T_NthRef, None, 12%Z, []); t T_Slash; l T_String "a"%string; t T_Newline;
   l T_Symbol "[]="%string; t T_Equal; l T_Symbol "<="%string; t T_HashRocket; l T_Symbol "!"%string; t T_Comma; l T_Symbol "@@a"%string; t T_Comma; l T_Symbol "$b"%string; t T_Eof].
Proof. vm_compute. reflexivity. Qed.

(** In Ruby a name takes a ? or ! with it only if no = follows, and a = only behind
    def or a colon where no comparison follows. *)
Theorem C32_not_equal_refuted : exists ts,
  tokens 9 (s2l "x!=1") = Ok ts /\
  shapes ts = [(T_BareName, Some (s2l "x!")); (T_Equal, None); (T_Fixnum, None); (T_Eof, None)].
Proof. eexists. split; vm_compute; reflexivity. Qed.
Theorem C32_equal_behind_symbol_refuted : exists ts,
  tokens 9 (s2l ":a==b") = Ok ts /\
  shapes ts = [(T_Symbol, Some (s2l "a=")); (T_Equal, None); (T_BareName, Some (s2l "b")); (T_Eof, None)].
Proof. eexists. split; vm_compute; reflexivity. Qed.
(** A comparison parses as an assignment, an optional parameter as a parameter and a body. *)
Definition head (s : sexp) : str := match s with Sexp _ _ _ (SSym h :: _) => h | _ => [] end.
Theorem C32_equal_behind_constant_refuted : exists a b,
  parse 20 [] (s2l "A::B==1") = Parsed a /\ head a = s2l "cdecl" /\
  parse 20 [] (s2l "A::B == 1") = Parsed b /\ head b = s2l "call".
Proof. do 2 eexists. split; [vm_compute; reflexivity|]. split; [reflexivity|]. split; [vm_compute; reflexivity|]. reflexivity. Qed.
Theorem C32_equal_behind_scope_refuted : exists a b,
  parse 20 [] (s2l "A::B.c==1") = Parsed a /\ head a = s2l "attrasgn" /\
  parse 20 [] (s2l "A::B.c == 1") = Parsed b /\ head b = s2l "call".
Proof. do 2 eexists. split; [vm_compute; reflexivity|]. split; [reflexivity|]. split; [vm_compute; reflexivity|]. reflexivity. Qed.
Theorem C32_optional_parameter_refuted : exists ts,
  tokens 20 (s2l "def foo a=1; end") = Ok ts /\
  shapes ts = [(T_DefKeyword, None); (T_BareName, Some (s2l "foo")); (T_BareName, Some (s2l "a=")); (T_Fixnum, None); (T_Semicolon, None);
               (T_EndKeyword, None); (T_Eof, None)].
Proof. eexists. split; vm_compute; reflexivity. Qed.

(** ** C33: blanks, continued lines and comments do not change the tokens *)

Theorem C33_layout : forall items tail items' tail' fuel,
  fine start items tail -> fine start items' tail' -> filter heard (map snd items) = filter heard (map snd items') ->
  hd 0 (written items tail) <> 0xEF -> hd 0 (written items' tail') <> 0xEF -> (length items < fuel)%nat -> (length items' < fuel)%nat ->
  exists ts ts', tokens fuel (written items tail) = Ok ts /\ tokens fuel (written items' tail') = Ok ts' /\ map value ts = map value ts'.
Proof.
  intros items tail items' tail' fuel F F' E H H' N N'. do 2 eexists.
  split; [apply text_tokens; assumption|]. split; [apply text_tokens; assumption|]. apply text_layout. exact E.
Qed.
Definition other_layout : list (str * lexeme) :=
  [ (s2l "", L_name (s2l "a") []); (s2l " ", L_punct (s2l "+") T_Plus); (s2l "  ", L_comment (s2l "one")); (s2l "", L_newline);
    (ch_tab :: ch_bs :: ch_nl :: s2l "", L_int (s2l "1") (s2l "1")) ].
Definition one_line : list (str * lexeme) :=
  [ (s2l "", L_name (s2l "a") []); (s2l "", L_punct (s2l "+") T_Plus); (s2l "", L_newline); (s2l "", L_int (s2l "1") (s2l "1")) ].
Example C33_example :
  fine start other_layout [] /\ fine start one_line (s2l " ") /\ filter heard (map snd other_layout) = filter heard (map snd one_line).
Proof. split; [apply fineb_ok; vm_compute; reflexivity|]. split; [apply fineb_ok; vm_compute; reflexivity|reflexivity]. Qed.

Print Assumptions C32_tokens.
Print Assumptions C32_not_equal_refuted.
Print Assumptions C32_equal_behind_symbol_refuted.
Print Assumptions C32_equal_behind_constant_refuted.
Print Assumptions C32_equal_behind_scope_refuted.
Print Assumptions C32_optional_parameter_refuted.
Print Assumptions C33_layout.

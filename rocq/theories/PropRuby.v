(** * PropRuby: whole programs *)
From Coq Require Import Strings.String NArith ZArith Bool Arith List.
From Verif Require Import Base Token Spec SpecLit SpecLexeme SpecText LexDeep LexModel LexText LexFine Node ParserBase ParserModel Sexp SpecRuby RubyTransform RubyNodes RubyBase RubyRun RubyClass.
Import ListNotations.
Open Scope string_scope.
Open Scope list_scope.
Open Scope N_scope.

(** ** C34: the tokens of a program parse to the meaning of the program *)
Theorem C34_program : forall b eof file, program_fits b = true -> ty eof = T_Eof ->
  exists tree s v, parse_tokens file (body_text text b ++ [eof]) = POk tree s /\ node_sexp tree = inl v /\ bare v = program_meaning b.
Proof. intros b eof file H T. exact (program_ok b eof file T H). Qed.

(** The same tokens have one meaning, however the program is put together. *)
Theorem C34_one_meaning : forall b b', program_fits b = true -> program_fits b' = true -> body_text text b = body_text text b' ->
  program_meaning b = program_meaning b'.
Proof. exact one_meaning. Qed.

(** ** C35: a text that is written as a program parses to the meaning of the program *)
Theorem C35_source : forall items tail b eof file fuel,
  fine start items tail -> hd 0 (written items tail) <> 0xEF -> (length items < fuel)%nat ->
  tokens_of items tail = body_text text b ++ [eof] -> ty eof = T_Eof -> program_fits b = true ->
  exists v, parse fuel file (written items tail) = Parsed v /\ bare v = program_meaning b.
Proof. exact source_ok. Qed.

Definition source : list (str * lexeme) :=
  [ (s2l "", L_keyword (s2l "class") T_ClassKeyword); (s2l " ", L_name (s2l "Point") []); (s2l " ", L_punct (s2l "<") T_LessThan); (s2l " ", L_name (s2l "Base") []); (s2l "", L_newline);
    (s2l "  ", L_keyword (s2l "def") T_DefKeyword); (s2l " ", L_name (s2l "add") []); (s2l "", L_punct (s2l "(") T_LParen); (s2l "", L_name (s2l "other") []); (s2l "", L_punct (s2l ",") T_Comma);
    (s2l " ", L_key (s2l "scale") []); (s2l " ", L_int (s2l "2") (s2l "2")); (s2l "", L_punct (s2l ")") T_RParen); (s2l "", L_newline);
    (s2l "    ", L_ivar (s2l "x")); (s2l " ", L_punct (s2l "+=") T_PlusEqual); (s2l " ", L_name (s2l "other") []); (s2l "", L_punct (s2l ".") T_Dot); (s2l "", L_name (s2l "x") []); (s2l " ", L_punct (s2l "*") T_Star);
    (s2l " ", L_name (s2l "scale") []); (s2l " ", L_keyword (s2l "if") T_IfKeyword); (s2l " ", L_name (s2l "other") []); (s2l "", L_newline);
    (s2l "    ", L_punct (s2l "[") T_LBracket); (s2l "", L_ivar (s2l "x")); (s2l "", L_punct (s2l ",") T_Comma); (s2l " ", L_symbol (s2l "y") []); (s2l "", L_punct (s2l "]") T_RBracket);
    (s2l "", L_punct (s2l ".") T_Dot); (s2l "", L_name (s2l "each") []); (s2l " ", L_punct (s2l "{") T_LCurlyBrace); (s2l " ", L_punct (s2l "|") T_Pipe); (s2l "", L_name (s2l "v") []); (s2l "", L_punct (s2l "|") T_Pipe);
    (s2l " ", L_name (s2l "puts") []); (s2l " ", L_name (s2l "v") []); (s2l "", L_punct (s2l ",") T_Comma); (s2l " ", L_name (s2l "scale") []); (s2l " ", L_punct (s2l "}") T_RCurlyBrace); (s2l "", L_newline);
    (s2l "  ", L_keyword (s2l "end") T_EndKeyword); (s2l "", L_newline); (s2l "", L_keyword (s2l "end") T_EndKeyword) ].
Definition source_program : body rb :=
  let ts := tokens_of source [] in
  let t n := nth n ts no_token in
  let v n := R_leaf (t n) in
  ([], [(R_class (t 0) (v 1) (Some (t 2, v 3))
    ([t 4],
     [(R_def (t 5) None (t 6) (F_some (t 7) [(P_req (t 8), t 9); (P_kopt (t 10) (v 11), t 12)])
        ([t 13],
         [(R_modifier (R_op_assign (t 14) (t 15) (R_binary (R_call (V_dot (v 16) (t 17)) (t 18) A_none) (t 19) (v 20))) (t 21) (v 22), [t 23]);
          (R_block (R_call (V_dot (R_array (t 24) [(v 25, t 26); (v 27, t 28)]) (t 29)) (t 30) A_none) (t 31)
             (F_some (t 32) [(P_req (t 33), t 34)]) ([], [(R_command V_none (t 35) [(v 36, t 37)] (v 38), [])]) (t 39), [t 40])])
        (t 41), [t 42])]) (t 43), [])])%nat.
Example C35_fits :
  fine start source [] /\ hd 0 (written source []) <> 0xEF /\
  tokens_of source [] = body_text text source_program ++ [nth 44 (tokens_of source []) no_token] /\
  ty (nth 44 (tokens_of source []) no_token) = T_Eof /\ program_fits source_program = true.
Proof. split; [apply fineb_ok; vm_compute; reflexivity|]. split; [discriminate|]. repeat split; vm_compute; reflexivity. Qed.
Example C35_example :
  let sym (x : string) := SSym (s2l x) in
  let lvar (x : string) := sx "lvar" [sym x] in
  let ivar := sx "ivar" [sym "@x"] in
  program_meaning source_program =
  sx "class" [sym "Point"; sx "const" [sym "Base"];
    sx "defn" [sym "add"; sx "args" [sym "other"; sx "kwarg" [sym "scale"; sx "lit" [SInt 2]]];
      sx "if" [lvar "other";
        sx "iasgn" [sym "@x"; sx "call" [ivar; sym "+"; sx "call" [sx "call" [lvar "other"; sym "x"]; sym "*"; lvar "scale"]]]; SNil];
      sx "iter" [sx "call" [sx "array" [ivar; sx "lit" [sym "y"]]; sym "each"]; sx "args" [sym "v"];
        sx "call" [SNil; sym "puts"; lvar "v"; lvar "scale"]]]].
Proof. vm_compute. reflexivity. Qed.
Example C35_run : exists v, parse 50 [] (written source []) = Parsed v /\ bare v = program_meaning source_program.
Proof. eexists. split; vm_compute; reflexivity. Qed.
(** The same for a text with interpolated code. *)
Theorem C35_text : forall c b eof file fuel,
  items_fine start None c [] -> hd 0 (SpecText.text c) <> 0xEF -> (length (SpecText.text c) < fuel)%nat ->
  text_tokens_of c = body_text text b ++ [eof] -> ty eof = T_Eof -> program_fits b = true ->
  exists v, parse fuel file (SpecText.text c) = Parsed v /\ bare v = program_meaning b.
Proof. exact tree_source_ok. Qed.

Definition wd (b w : string) (more : items) : items := I_item (s2l b) (E_word (L_name (s2l w) [])) more.
Definition mk (b w : string) (t : ttype) (more : items) : items := I_item (s2l b) (E_word (L_punct (s2l w) t)) more.
Definition kw (b w : string) (t : ttype) (more : items) : items := I_item (s2l b) (E_word (L_keyword (s2l w) t)) more.
Definition ln (more : items) : items := I_item [] (E_word L_newline) more.
Definition int (b w : string) (more : items) : items := I_item (s2l b) (E_word (L_int (s2l w) (s2l w))) more.
Definition chars (s : string) : list Spec.piece := map PChar (s2l s).
Definition lit_ (b : string) (o : str) (q : N) (t u : ttype) (ps : parts) (more : items) : items := I_item (s2l b) (E_literal o q q t u ps) more.
Definition str_ b ps more := lit_ b [ch_dq] ch_dq T_InterpolatedStringBegin T_InterpolatedStringEnd ps more.
Definition stop : items := I_end [].
Definition greeting : items :=
  kw "" "def" T_DefKeyword (wd " " "greet" (mk "" "(" T_LParen (wd "" "name" (mk "" "," T_Comma (wd " " "n" (mk " " "=" T_Equal (int " " "2" (mk "" ")" T_RParen (ln
  (wd "  " "puts" (str_ " " (P_code (chars "Hi ") (wd "" "name" stop)
      (P_code (chars ", ") (wd "" "x" (mk " " "=" T_Equal (wd " " "n" (mk " " "+" T_Plus (int " " "1" (mk "" ";" T_Semicolon (wd " " "x" (mk " " "*" T_Star (wd " " "y" stop)))))))))
      (P_code [] (str_ "" (P_end (chars "!")) stop)
      (P_code [] (str_ "" (P_code [] (wd "" "x" stop) (P_end [])) stop) (P_end (chars "."))))))
  (mk "" "," T_Comma (lit_ " " [":"%ch; ch_dq] ch_dq T_InterpolatedSymbolBegin T_InterpolatedSymbolEnd (P_code (chars "k") (wd "" "n" stop) (P_end [])) (ln
  (lit_ "  " (s2l "`") "`"%ch T_InterpolatedShellBegin T_InterpolatedShellEnd (P_code (chars "ls ") (wd "" "name" stop) (P_end [])) (ln
  (kw "" "end" T_EndKeyword (ln stop)))))))))))))))))).
Definition greeting_program : body rb :=
  let ts := text_tokens_of greeting in
  let t n := nth n ts no_token in
  let v n := R_leaf (t n) in
  ([], [(R_def (t 0) None (t 1) (F_some (t 2) [(P_req (t 3), t 4); (P_opt (t 5) (t 6) (v 7), t 8)])
     ([t 9],
      [(R_command V_none (t 10)
          [(R_quoted (t 11)
              [S_text (t 12); S_code (t 13) ([], [(v 14, [])]) (t 15); S_text (t 16);
               S_code (t 17) ([], [(R_assign (t 18) (t 19) (R_binary (v 20) (t 21) (v 22)), [t 23]); (R_binary (v 24) (t 25) (v 26), [])]) (t 27);
               S_code (t 28) ([], [(R_quoted (t 29) [S_text (t 30)] (t 31), [])]) (t 32);
               S_code (t 33) ([], [(R_quoted (t 34) [S_code (t 35) ([], [(v 36, [])]) (t 37)] (t 38), [])]) (t 39);
               S_text (t 40)] (t 41), t 42)]
          (R_quoted (t 43) [S_text (t 44); S_code (t 45) ([], [(v 46, [])]) (t 47)] (t 48)), [t 49]);
       (R_quoted (t 50) [S_text (t 51); S_code (t 52) ([], [(v 53, [])]) (t 54)] (t 55), [t 56])]) (t 57), [t 58])])%nat.
Example C35_text_fits :
  items_fine start None greeting [] /\ hd 0 (SpecText.text greeting) <> 0xEF /\
  text_tokens_of greeting = body_text text greeting_program ++ [nth 59 (text_tokens_of greeting) no_token] /\
  ty (nth 59 (text_tokens_of greeting) no_token) = T_Eof /\ program_fits greeting_program = true.
Proof. split; [apply items_fineb_ok; vm_compute; reflexivity|]. split; [discriminate|]. repeat split; vm_compute; reflexivity. Qed.
Example C35_text_example :
  let sym (x : string) := SSym (s2l x) in
  let st (x : string) := SStr (s2l x) in
  let lvar (x : string) := sx "lvar" [sym x] in
  let ev l := sx "evstr" l in
  program_meaning greeting_program =
  sx "defn" [sym "greet"; sx "args" [sym "name"; sx "lasgn" [sym "n"; sx "lit" [SInt 2]]];
    sx "call" [SNil; sym "puts";
      sx "dstr" [st "Hi "; ev [lvar "name"]; sx "str" [st ", "];
        ev [sx "block" [sx "lasgn" [sym "x"; sx "call" [lvar "n"; sym "+"; sx "lit" [SInt 1]]]; sx "call" [lvar "x"; sym "*"; sx "call" [SNil; sym "y"]]]];
        sx "str" [st "!"]; ev [lvar "x"]; sx "str" [st "."]];
      sx "dsym" [st "k"; ev [lvar "n"]]];
    sx "dxstr" [st "ls "; ev [lvar "name"]]].
Proof. vm_compute. reflexivity. Qed.
Example C35_text_run : exists v, parse 120 [] (SpecText.text greeting) = Parsed v /\ bare v = program_meaning greeting_program.
Proof. eexists. split; vm_compute; reflexivity. Qed.

(** Every form of expression, in one program of tokens. *)
Definition k (x : ttype) : token := Tok x None None 0 [] 0 0 false.
Definition tn x (s : str) : token := Tok x (Some s) None 0 [] 0 0 true.
Definition nm (s : str) : token := tn T_BareName s.
Definition every_form : body rb :=
  let v (x : string) := R_leaf (nm (s2l x)) in
  let cn (x : string) := R_leaf (tn T_Constant (s2l x)) in
  let i z := R_leaf (Tok T_Fixnum None None z [] 0 0 true) in
  let st (x : string) := R_leaf (tn T_String (s2l x)) in
  let bn a o b := R_binary a (k o) b in
  let nl := k T_Newline in let cm := k T_Comma in let rp := k T_RParen in let fin := k T_EndKeyword in
  ([nl],
   map (fun e => (e, [nl]))
   [ R_assign (nm (s2l "a")) (k T_Equal) (R_ternary (v "b") (k T_TernaryQuestion) (i 1%Z) (k T_TernaryColon) (R_assign (nm (s2l "c")) (k T_Equal) (st "d")));
     R_call V_none (nm (s2l "f")) (A_some (k T_LParen) [(v "a", cm); (R_assign (nm (s2l "z")) (k T_Equal) (i 2%Z), cm)] [P_key (tn T_SymbolKey (s2l "k")) (v "z") cm; P_rocket (st "q") (k T_HashRocket) (i 3%Z) rp]);
     R_block (R_command (V_dot (v "x") (k T_SafeNavigation)) (nm (s2l "go")) [(v "a", cm)] (v "y")) (k T_DoKeyword)
       (F_some (k T_Pipe) [(P_req (nm (s2l "p")), cm); (P_opt (nm (s2l "q")) (k T_Equal) (bn (v "p") T_Plus (i 1%Z)), cm); (P_block (k T_Ampersand) (nm (s2l "blk")), k T_Pipe)])
       ([nl], [(v "p", [nl]); (v "q", [])]) fin;
     R_if (k T_IfKeyword) (bn (R_unary (k T_NotKeyword) (bn (v "a") T_EqualEqual (v "b"))) T_AndKeyword (v "c"))
       ([k T_ThenKeyword], [(R_op_assign (nm (s2l "a")) (k T_PipePipeEqual) (i 2%Z), [nl]); (v "a", [])])
       [(k T_ElsifKeyword, (v "q", ([nl], [])))] (Some (k T_ElseKeyword, ([], [(R_jump (k T_BreakKeyword) None, [])]))) fin;
     R_unless (k T_UnlessKeyword) (v "c") ([nl], [(R_jump (k T_ReturnKeyword) (Some (i 3%Z)), [nl])]) None fin;
     R_case (k T_CaseKeyword) (v "c") [nl] [([(k T_WhenKeyword, i 1%Z); (cm, v "x")], ([nl], [(v "a", [nl])])); ([(k T_WhenKeyword, i 1%Z)], ([k T_ThenKeyword], []))]
       (Some (k T_ElseKeyword, ([], [(i 4%Z, [])]))) fin;
     R_class (k T_ClassKeyword) (R_scope (cn "A") (k T_ConstantResolution) (tn T_Constant (s2l "B"))) (Some (k T_LessThan, R_top (k T_ConstantResolution) (tn T_Constant (s2l "C"))))
       ([nl], [(R_def (k T_DefKeyword) (Some (k T_SelfKeyword, k T_Dot)) (nm (s2l "f"))
          (F_some (k T_LParen) [(P_req (nm (s2l "a")), cm); (P_splat (k T_Star) (nm (s2l "r")), cm); (P_req (nm (s2l "a2")), cm); (P_kreq (tn T_SymbolKey (s2l "kk")), cm);
             (P_kopt (tn T_SymbolKey (s2l "kl")) (i 2%Z), cm); (P_ksplat (k T_StarStar) (nm (s2l "ks")), rp)])
          ([], [(v "a", [nl]); (v "kl", [nl])]) fin, [nl])]) fin;
     R_module (k T_ModuleKeyword) (cn "M") ([nl], []) fin;
     R_while (k T_UntilKeyword) (bn (i 1%Z) T_PipePipe (bn (i 2%Z) T_AmpersandAmpersand (i 3%Z))) ([nl], [(i 1%Z, [nl]); (i 2%Z, [])]) fin;
     R_modifier (R_keyword (k T_YieldKeyword) (A_some (k T_LParen) [(i 1%Z, rp)] [])) (k T_WhileKeyword) (R_group (k T_LParen) (bn (v "c") T_OrKeyword (v "c")) rp);
     R_hash (k T_LCurlyBrace) [P_key (tn T_SymbolKey (s2l "k")) (R_empty_array (k T_LBracketRBracket)) cm; P_rocket (st "q") (k T_HashRocket) (R_empty_hash (k T_LCurlyBrace) (k T_RCurlyBrace)) (k T_RCurlyBrace)];
     R_index (R_call (V_dot (R_leaf (k T_SelfKeyword)) (k T_Dot)) (k T_ClassKeyword) A_none) (k T_LBracket) [(i 1%Z, cm); (st "x", k T_RBracket)];
     bn (i 1%Z) T_DotDot (R_unary (k T_Minus) (i 5%Z));
     R_quoted (k T_InterpolatedStringBegin) [] (k T_InterpolatedStringEnd);
     R_quoted (k T_InterpolatedSymbolBegin) [S_text (tn T_String (s2l "s"))] (k T_InterpolatedSymbolEnd);
     R_quoted (k T_InterpolatedStringBegin)
       [S_text (tn T_String (s2l "s")); S_code (k T_EvaluateToStringBegin) ([], [(v "a", [k T_Semicolon]); (v "b", [])]) (k T_EvaluateToStringEnd);
        S_code (k T_EvaluateToStringBegin) ([], [(R_quoted (k T_InterpolatedStringBegin) [S_text (tn T_String (s2l "t"))] (k T_InterpolatedStringEnd), [])]) (k T_EvaluateToStringEnd);
        S_text (tn T_String (s2l "u"))] (k T_InterpolatedStringEnd);
     R_quoted (k T_InterpolatedStringBegin)
       [S_code (k T_EvaluateToStringBegin) ([], [(R_quoted (k T_InterpolatedStringBegin) [S_text (tn T_String (s2l "t"))] (k T_InterpolatedStringEnd), [])]) (k T_EvaluateToStringEnd)]
       (k T_InterpolatedStringEnd);
     R_quoted (k T_InterpolatedShellBegin) [S_text (tn T_String (s2l "s")); S_code (k T_EvaluateToStringBegin) ([nl], [(R_command V_none (nm (s2l "f")) [] (v "a"), [nl])]) (k T_EvaluateToStringEnd)]
       (k T_InterpolatedShellEnd);
     R_attr (v "a") (k T_Dot) (nm (s2l "n")) (k T_Equal) (R_attr (R_call (V_dot (v "a") (k T_Dot)) (nm (s2l "m")) A_none) (k T_SafeNavigation) (nm (s2l "n")) (k T_PlusEqual) (i 1%Z));
     R_element (v "a") (k T_LBracket) [(i 1%Z, cm); (v "b", k T_RBracket)] (k T_Equal) (R_element (v "a") (k T_LBracket) [(i 1%Z, k T_RBracket)] (k T_PipePipeEqual) (i 2%Z));
     R_attr (R_leaf (k T_SelfKeyword)) (k T_Dot) (nm (s2l "n")) (k T_AmpersandAmpersandEqual) (R_defined (k T_DefinedKeyword) (k T_LParen) (R_leaf (tn T_InstanceVariable (s2l "@a"))) rp);
     R_call (V_dot (R_lambda (k T_Arrow) (Some (k T_LParen, rp)) (k T_LCurlyBrace) ([], [(v "a", [nl]); (v "z", [])]) (k T_RCurlyBrace)) (k T_Dot)) (nm (s2l "call")) A_none;
     R_lambda (k T_Arrow) None (k T_DoKeyword) ([nl], []) fin;
     R_class (k T_ClassKeyword) (cn "D") None
       ([nl], [(R_sclass (k T_ClassKeyword) (k T_LeftShift) (R_leaf (k T_SelfKeyword)) ([nl], [(R_call V_none (nm (s2l "g")) (A_some (k T_LParen) [(i 1%Z, rp)] []), [nl])]) fin, [nl])]) fin;
     R_assign (nm (s2l "w")) (k T_Equal) (R_begin (k T_BeginKeyword) ([nl], [(R_assign (nm (s2l "u")) (k T_Equal) (v "a"), [nl])])
       [C_rescue (k T_RescueKeyword) (Some (cn "E", [(cm, R_scope (cn "A") (k T_ConstantResolution) (tn T_Constant (s2l "F")))])) (Some (k T_HashRocket, nm (s2l "e")))
          ([nl], [(R_jump (k T_ReturnKeyword) None, [nl]); (v "e", [nl])]); C_rescue (k T_RescueKeyword) None None ([nl], [])]
       (Some (k T_ElseKeyword, ([nl], [(v "e", [nl]); (v "u", [nl])]))) (Some (k T_EnsureKeyword, ([nl], [(v "u", [])]))) fin);
     R_modifier (R_begin (k T_BeginKeyword) ([nl], [(v "a", [nl])]) [] None (Some (k T_EnsureKeyword, ([nl], [(i 1%Z, [nl]); (v "w", [])]))) fin) (k T_WhileKeyword) (v "w");
     R_for (k T_ForKeyword) (nm (s2l "j")) (k T_InKeyword) (bn (i 1%Z) T_DotDotDot (v "a")) ([nl], [(v "j", [nl]); (R_jump (k T_NextKeyword) None, [nl])]) fin;
     R_array (k T_LBracket) [(i 1%Z, cm); (R_splat (k T_Star) (R_call (V_dot (v "a") (k T_Dot)) (nm (s2l "to_a")) A_none), cm); (R_splat (k T_Star) (v "b"), k T_RBracket)];
     R_call V_none (nm (s2l "f")) (A_pass (k T_LParen) [(R_splat (k T_Star) (v "a"), cm)] [P_double (k T_StarStar) (v "b") cm; P_key (tn T_SymbolKey (s2l "k")) (R_assign (nm (s2l "z")) (k T_Equal) (i 2%Z)) cm]
       (k T_Ampersand) (R_quoted (k T_InterpolatedSymbolBegin) [S_text (tn T_String (s2l "s"))] (k T_InterpolatedSymbolEnd)) rp);
     R_call (V_dot (v "a") (k T_Dot)) (nm (s2l "map")) (A_pass (k T_LParen) [] [] (k T_Ampersand) (v "b") rp);
     R_keyword (k T_SuperKeyword) (A_pass (k T_LParen) [(v "a", cm)] [] (k T_Ampersand) (R_assign (nm (s2l "y2")) (k T_Equal) (v "b")) rp);
     R_hash (k T_LCurlyBrace) [P_double (k T_StarStar) (v "a") cm; P_key (tn T_SymbolKey (s2l "k")) (i 1%Z) (k T_RCurlyBrace)];
     R_block (R_keywords V_none (nm (s2l "run")) [(v "a", cm); (R_splat (k T_Star) (v "b"), cm)] [P_key (tn T_SymbolKey (s2l "k")) (v "b") cm; P_double (k T_StarStar) (v "c") cm]
       None (tn T_SymbolKey (s2l "m")) (bn (v "a") T_Plus (i 1%Z))) (k T_DoKeyword) F_none ([nl], []) fin;
     R_keywords (V_dot (v "x") (k T_Dot)) (nm (s2l "set")) [] [] (Some (st "q")) (k T_HashRocket) (R_ternary (v "b") (k T_TernaryQuestion) (i 1%Z) (k T_TernaryColon) (i 2%Z));
     R_keywords V_none (nm (s2l "set")) [] [] None (tn T_SymbolKey (s2l "m")) (v "y2");
     R_command V_none (nm (s2l "p")) [(R_leaf (Tok T_NthRef None None 1 [] 0 0 true), cm); (R_leaf (tn T_BackRef (s2l "&")), cm)] (R_leaf (k T_ENCODINGKeyword));
     R_alias (k T_AliasKeyword) (nm (s2l "a1")) (tn T_Symbol (s2l "=="));
     R_alias (k T_AliasKeyword) (tn T_GlobalVariable (s2l "$new")) (tn T_GlobalVariable (s2l "$old"));
     R_undef (k T_UndefKeyword) (tn T_OperatorName (s2l "x="));
     R_keyword (k T_SuperKeyword) (A_empty (k T_LParen) rp);
     R_block (R_keyword (k T_SuperKeyword) (A_some (k T_LParen) [(v "a", rp)] [])) (k T_DoKeyword) F_none ([nl], []) fin;
     R_yield (k T_YieldKeyword) [(R_assign (nm (s2l "yy")) (k T_Equal) (i 4%Z), cm); (v "unset", cm)] (bn (v "yy") T_Plus (i 5%Z));
     R_modifier (R_yield (k T_SuperKeyword) [] (st "up")) (k T_IfKeyword) (v "yy");
     R_modifier (R_jump (k T_RedoKeyword) None) (k T_IfKeyword) (v "c"); R_jump (k T_RetryKeyword) None;
     R_command V_none (nm (s2l "private")) []
       (R_def (k T_DefKeyword) None (nm (s2l "hidden")) F_none ([nl], [(R_command V_none (nm (s2l "p")) [(R_unary (k T_Not) (v "a"), cm)] (R_defined (k T_DefinedKeyword) (k T_LParen) (cn "B") rp), [nl])]) fin);
     R_command V_none (nm (s2l "scope")) [(R_leaf (tn T_Symbol (s2l "s")), cm)] (R_lambda (k T_Arrow) None (k T_LCurlyBrace) ([], [(v "a", [])]) (k T_RCurlyBrace));
     R_block (R_command V_none (nm (s2l "each")) [] (v "a")) (k T_DoKeyword) F_none ([nl], []) fin;
     R_jump (k T_ReturnKeyword) (Some (R_unary (k T_Tilde) (R_keyword (k T_YieldKeyword) A_none))) ]).
Example C34_fits : program_fits every_form = true.
Proof. vm_compute. reflexivity. Qed.
Example C34_run : exists tree s v, parse_tokens [] (body_text text every_form ++ [k T_Eof]) = POk tree s /\ node_sexp tree = inl v /\ bare v = program_meaning every_form.
Proof. do 3 eexists. split; [vm_compute; reflexivity|]. split; vm_compute; reflexivity. Qed.

(** ** Texts of Ruby that are not parsed to what they mean *)
(** Equal in Ruby to a text that is parsed. *)
Definition parsed (s : string) : option sexp := match parse 60 [] (s2l s) with Parsed v => Some (bare v) | _ => None end.
Definition rejected (s : string) : bool := match parse 60 [] (s2l s) with SyntaxError _ => true | _ => false end.
Definition differ (s s' : string) : Prop := exists v v', parsed s = Some v /\ parsed s' = Some v' /\ v <> v'.
Ltac differ := do 2 eexists; split; [vm_compute; reflexivity|]; split; [vm_compute; reflexivity|discriminate].
Theorem C34_rescue_in_method_refuted :
  rejected "memo def x; 1; rescue; 2; end; foo do end" = true /\
  parsed "memo def x; 1; end; foo do end" <> None /\ parsed "memo(def x; 1; rescue; 2; end); foo do end" <> None.
Proof. split; [vm_compute; reflexivity|split; vm_compute; discriminate]. Qed.
Theorem C34_while_do_refuted :
  rejected "while a == 1 do x end" = true /\ rejected "while a + b do x end" = true /\ rejected "until !a do x end" = true /\ rejected "while a && b do x end" = true /\
  parsed "while (a == 1) do x end" <> None.
Proof. repeat split; [vm_compute; reflexivity..|vm_compute; discriminate]. Qed.
Theorem C34_modifier_of_and_refuted : differ "a and b if c" "(a and b) if c".
Proof. differ. Qed.
Theorem C34_two_modifiers_refuted : differ "a if b if c" "(a if b) if c".
Proof. differ. Qed.
Theorem C34_assignment_argument_refuted : differ "f(a = b = 1, 2)" "f((a = b = 1), 2)" /\ differ "[a = b = 1, 2]" "[(a = b = 1), 2]" /\ differ "f(x ? 1 : a = 2, 3)" "f(x ? 1 : (a = 2), 3)".
Proof. repeat split; differ. Qed.
Theorem C34_group_loop_refuted : parsed "(a; b) while c" = parsed "begin; a; b; end while c" /\ parsed "begin; a; end while c" <> parsed "(a) while c".
Proof. split; [vm_compute; reflexivity|vm_compute; discriminate]. Qed.
Theorem C34_bare_return_refuted : rejected "if a then return else b end" = true /\ rejected "(return)" = true /\ parsed "if a then return; else b end" <> None /\ parsed "(return;)" <> None.
Proof. repeat split; vm_compute; (reflexivity || discriminate). Qed.
Theorem C34_superclass_refuted : parsed "x = 1; class A < x; end" = parsed "x = 1; class A < x(); end" /\ differ "x = 1; class << x; end" "x = 1; class << x(); end".
Proof. split; [vm_compute; reflexivity|differ]. Qed.
Theorem C34_empty_else_refuted : differ "case a; when b; c; else; end" "case a; when b; c; end" /\ parsed "if b; c; else; end" = parsed "if b; c; end".
Proof. split; [differ|vm_compute; reflexivity]. Qed.
Theorem C34_assignment_operand_refuted : rejected "1 + x = 5" = true /\ parsed "1 + (x = 5)" <> None /\ parsed "a && x = 5" <> None.
Proof. repeat split; vm_compute; (reflexivity || discriminate). Qed.
Theorem C34_splat_argument_refuted : parsed "foo *b" = parsed "foo * b" /\ parsed "foo -1" = parsed "foo(-1)" /\ differ "foo *b" "foo(*b)".
Proof. split; [vm_compute; reflexivity|]. split; [vm_compute; reflexivity|differ]. Qed.
Theorem C34_lambda_scope_refuted : parsed "y { |x| x }; x" = parsed "y { |x| x }; x()" /\ differ "->(x) { x }; x" "->(x) { x }; x()".
Proof. split; [vm_compute; reflexivity|differ]. Qed.
Theorem C34_sclass_scope_refuted :
  parsed "x = 1; class A; x; end" = parsed "x = 1; class A; x(); end" /\ differ "x = 1; class << self; x; end" "x = 1; class << self; x(); end" /\
  differ "class << self; x = 1; end; x" "class << self; x = 1; end; x()".
Proof. split; [vm_compute; reflexivity|]. split; differ. Qed.
(** The code of a string that is nothing else is taken out of a string around it, but not
    at every depth. *)
Theorem C34_nested_code_refuted :
  parsed "x = 1; ""#{""#{x}""}""" = parsed "x = 1; ""#{x}""" /\ differ "x = 1; ""#{""#{""#{x}""}""}""" "x = 1; ""#{x}""".
Proof. split; [vm_compute; reflexivity|differ]. Qed.

Theorem C34_begin_line_refuted :
  rejected "begin x end" = true /\ rejected "begin; x; rescue E then y; end" = true /\ parsed "begin; x; end" <> None /\ parsed "begin; x; rescue E; y; end" <> None /\
  parsed "case x; when E then y; end" <> None.
Proof. repeat split; vm_compute; (reflexivity || discriminate). Qed.
(** Only [begin] itself, not the group around it, makes the loop start with its body. *)
Theorem C34_rescue_loop_refuted :
  parsed "(begin; a; rescue; b; end) while c" = parsed "begin; a; rescue; b; end while c" /\
  parsed "(a rescue b) while c" = parsed "begin; a; rescue; b; end while c" /\ differ "begin; a; rescue; b; end while c" "while c; a rescue b; end" /\
  parsed "(a) while c" = parsed "while c; a; end".
Proof. split; [vm_compute; reflexivity|]. split; [vm_compute; reflexivity|]. split; [differ|vm_compute; reflexivity]. Qed.
Theorem C34_rescue_modifier_refuted : differ "a rescue b if c" "(a rescue b) if c" /\ differ "a rescue b and c" "(a rescue b) and c".
Proof. split; differ. Qed.
(** A star binds more tightly than most operators. *)
Theorem C34_splat_operator_refuted :
  differ "f(*a || b)" "f(*(a || b))" /\ differ "[*a ? b : c]" "[*(a ? b : c)]" /\ differ "f(**a || b)" "f(**(a || b))" /\ parsed "f(*a.b)" = parsed "f(*(a.b))" /\
  parsed "f(&a || b)" = parsed "f(&(a || b))".
Proof. split; [differ|]. split; [differ|]. split; [differ|]. split; vm_compute; reflexivity. Qed.

Print Assumptions C34_program.
Print Assumptions C34_splat_operator_refuted.
Print Assumptions C34_begin_line_refuted.
Print Assumptions C34_rescue_loop_refuted.
Print Assumptions C34_rescue_modifier_refuted.
Print Assumptions C34_one_meaning.
Print Assumptions C35_source.
Print Assumptions C35_text.
Print Assumptions C34_rescue_in_method_refuted.
Print Assumptions C34_while_do_refuted.
Print Assumptions C34_modifier_of_and_refuted.
Print Assumptions C34_two_modifiers_refuted.
Print Assumptions C34_assignment_argument_refuted.
Print Assumptions C34_group_loop_refuted.
Print Assumptions C34_bare_return_refuted.
Print Assumptions C34_superclass_refuted.
Print Assumptions C34_empty_else_refuted.
Print Assumptions C34_assignment_operand_refuted.
Print Assumptions C34_splat_argument_refuted.
Print Assumptions C34_lambda_scope_refuted.
Print Assumptions C34_sclass_scope_refuted.
Print Assumptions C34_nested_code_refuted.

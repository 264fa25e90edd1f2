(** * PropText: texts with interpolated strings *)
From Coq Require Import Strings.String NArith ZArith Bool Arith List.
From Verif Require Import Base Token Spec SpecLit SpecLexeme SpecText LexModel LexDeep LexFine.
Import ListNotations.
Open Scope list_scope.
Open Scope N_scope.

(** ** C37: interpolated code, to any depth, has the tokens its elements stand for *)

Theorem C37_tokens : forall c fuel,
  items_fine start None c [] -> hd 0 (text c) <> 0xEF -> (length (text c) < fuel)%nat ->
  tokens fuel (text c) = Ok (text_tokens_of c).
Proof. exact tree_tokens. Qed.

(** Three strings in one another; a block and a newline inside of #{}. *)
Definition name_ (b w : string) (more : items) : items := I_item (s2l b) (E_word (L_name (s2l w) [])) more.
Definition mark (b w : string) (t : ttype) (more : items) : items := I_item (s2l b) (E_word (L_punct (s2l w) t)) more.
Definition chars (s : string) : list piece := map PChar (s2l s).
Definition string_ (b : string) (ps : parts) (more : items) : items :=
  I_item (s2l b) (E_literal (s2l """") """"%ch """"%ch T_InterpolatedStringBegin T_InterpolatedStringEnd ps) more.
Definition report : items :=
  name_ "" "puts"
  (string_ " "
    (P_code (chars "sum: ") (name_ "" "a" (mark " " "+" T_Plus (name_ " " "b" (I_end []))))
    (P_code (chars ", " ++ [PNamed "t"%ch])
       (name_ " " "names" (mark "" "." T_Dot (name_ "" "map" (mark " " "{" T_LCurlyBrace (name_ " " "n" (mark "" "." T_Dot (name_ "" "size" (mark " " "}" T_RCurlyBrace
        (mark "" "." T_Dot (name_ "" "join" (mark "" "(" T_LParen
        (string_ "" (P_code [] (I_item [] (E_literal ["%"; "Q"; "["]%ch "["%ch "]"%ch T_InterpolatedStringBegin T_InterpolatedStringEnd
                         (P_code (chars "x") (I_end (s2l " ")) (P_code [] (I_item [] (E_word (L_gvar (s2l "i"))) (I_end [])) (P_end (chars "y"))))) (I_end []))
                    (P_end (chars ", "))) 
        (mark "" ")" T_RParen (I_item [] (E_word L_newline) (I_end (s2l " "))))))))))))))))
    (P_end (chars "!"))))
  (mark "" "," T_Comma (I_item [] (E_word L_newline) (I_item (s2l " ") (E_literal (s2l ":""") """"%ch """"%ch T_InterpolatedSymbolBegin T_InterpolatedSymbolEnd (P_end (chars "k")))
  (I_item [] (E_word L_newline) (I_end [])))))).
Example C37_fine : items_fine start None report [] /\ hd 0 (text report) <> 0xEF.
Proof. split; [apply items_fineb_ok; vm_compute; reflexivity|discriminate]. Qed.
Example C37_text : text report = s2l "puts ""sum: #{a + b}, \t#{ names.map { n.size }.join(""#{%Q[x#{ }#{$i}y]}, "")" ++ [ch_nl] ++ s2l " }!""," ++ [ch_nl] ++ s2l " :""k""" ++ [ch_nl].
Proof. vm_compute. reflexivity. Qed.
Example C37_example :
  shapes (text_tokens_of report) =
  let t x := (x, None) in let n s := (T_BareName, Some (s2l s)) in let s s := (T_String, Some (s2l s)) in
  [n "puts"; (T_InterpolatedStringBegin, Some (s2l """")); s "sum: "; t T_EvaluateToStringBegin; n "a"; t T_Plus; n "b"; t T_EvaluateToStringEnd;
   (T_String, Some [","%ch; " "%ch; ch_tab]); t T_EvaluateToStringBegin; n "names"; t T_Dot; n "map"; t T_LCurlyBrace; n "n"; t T_Dot; n "size"; t T_RCurlyBrace; t T_Dot; n "join"; t T_LParen;
   (T_InterpolatedStringBegin, Some (s2l """")); t T_EvaluateToStringBegin; (T_InterpolatedStringBegin, Some (s2l "[")); s "x"; t T_EvaluateToStringBegin; t T_EvaluateToStringEnd;
   t T_EvaluateToStringBegin; (T_GlobalVariable, Some (s2l "$i")); t T_EvaluateToStringEnd; s "y"; t T_InterpolatedStringEnd; t T_EvaluateToStringEnd; s ", "; t T_InterpolatedStringEnd;
   t T_RParen; t T_Newline; t T_EvaluateToStringEnd; s "!"; t T_InterpolatedStringEnd; t T_Comma; (T_InterpolatedSymbolBegin, Some (s2l """")); s "k"; t T_InterpolatedSymbolEnd; t T_Newline; t T_Eof]%string.
Proof. vm_compute. reflexivity. Qed.
Example C37_run : tokens 150 (text report) = Ok (text_tokens_of report).
Proof. vm_compute. reflexivity. Qed.

(** ** C19: the same code gives the same tokens inside of #{} *)

(** If it reads the same without a token to look back to: [items_fine start (Some O)]
    asks this of the code between the braces. *)
Theorem C19_same_code : forall c fuel,
  items_fine start None c [] -> items_fine start (Some O) c (s2l "}""") -> hd 0 (text c) <> 0xEF -> (length (text c) + 5 < fuel)%nat ->
  exists ts us e1 e2 t1 t2 t3 t4,
    tokens fuel (text c) = Ok (drop_before (drop_after T_Invalid ts) ++ [e1]) /\
    tokens fuel (text (quoted c)) = Ok (drop_before (drop_after T_Invalid (t1 :: t2 :: us ++ [t3; t4])) ++ [e2]) /\
    map value us = map value ts /\
    map ty [t1; t2; t3; t4; e1; e2] =
      [T_InterpolatedStringBegin; T_EvaluateToStringBegin; T_EvaluateToStringEnd; T_InterpolatedStringEnd; T_Eof; T_Eof].
Proof. exact same_code. Qed.
Definition sum : items := name_ "" "a" (mark " " "+" T_Plus (string_ " " (P_code (chars "x") (name_ "" "y" (I_end [])) (P_end [])) (mark "" "." T_Dot (name_ "" "to_i" (I_end []))))).
Example C19_same_code_example : items_fine start None sum [] /\ items_fine start (Some O) sum (s2l "}""") /\ text (quoted sum) = s2l """#{a + ""x#{y}"".to_i}""".
Proof. split; [apply items_fineb_ok; vm_compute; reflexivity|]. split; [apply tree_fineb; vm_compute; reflexivity|vm_compute; reflexivity]. Qed.

Print Assumptions C37_tokens.
Print Assumptions C19_same_code.

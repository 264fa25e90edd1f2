(** * PropBrackets: brackets inside bracketed literals belong to the text *)
From Coq Require Import Strings.String NArith ZArith Bool Arith List Lia.
From Verif Require Import Base Token Spec SpecLit SpecBrackets LexModel LexBrackets.
Import ListNotations.
Open Scope string_scope.
Open Scope list_scope.
Open Scope N_scope.

(** ** C36: balanced brackets do not end a literal *)

Theorem C36_strings : forall op a b bt et ps fuel,
  opening op a b bt et -> brackets a b -> nest_ok a b ps b -> balanced a b (exposed ps) -> (4 <= fuel)%nat ->
  exists ts, tokens fuel (op ++ body_text ps ++ [b]) = Ok ts
    /\ shapes ts = (bt, Some [a]) :: content (body_bytes ps) ++ [(et, None); (T_Eof, None)].
Proof. exact nest_source. Qed.

Theorem C36_raw : forall c t a b ps fuel,
  raw_letter c t -> brackets a b -> qnest_ok ps -> balanced a b (rexposed ps) -> (2 <= fuel)%nat ->
  exists ts, tokens fuel (["%"%ch; c; a] ++ rbody_text ps ++ [b]) = Ok ts
    /\ shapes ts = [(t, Some (qbody_bytes b ps)); (T_Eof, None)].
Proof. exact qnest_source. Qed.

Theorem C36_regexps : forall op a b ps opts fuel,
  regexp_opening op a b -> brackets a b -> rnest_ok a b ps b -> balanced a b (rexposed ps) -> Forall regexp_option opts -> (4 <= fuel)%nat ->
  exists ts, tokens fuel (op ++ rbody_text ps ++ b :: opts) = Ok ts
    /\ shapes ts = [(T_InterpolatedRegexpBegin, Some [a]); (T_String, Some (rbody_bytes b ps));
                    (T_InterpolatedRegexpEnd, match opts with [] => None | _ => Some opts end); (T_Eof, None)].
Proof. exact rnest_source. Qed.

(** The brackets are counted over all the words. *)
Theorem C36_words : forall c t it a b lead ws fuel,
  array_letter c t it -> brackets a b -> Forall space lead -> nwords_ok it a b ws -> balanced a b (words_exposed ws) ->
  (length ws + 3 <= fuel)%nat ->
  exists ts, tokens fuel (["%"%ch; c; a] ++ lead ++ words_text ws ++ [b]) = Ok ts
    /\ shapes ts = (t, Some [a]) :: map (fun w => (T_String, Some (word_bytes it (fst w)))) ws ++ [(T_RBracket, None); (T_Eof, None)].
Proof. exact nwords_source. Qed.

(** f(g(\(), x)\n in parentheses. *)
Definition C36_text : list piece :=
  map PChar (s2l "f(g(") ++ [PQuoted "("%ch] ++ map PChar (s2l "), x)") ++ [PNamed "n"%ch].
Example C36_strings_example :
  opening (s2l "%Q(") "("%ch ")"%ch T_InterpolatedStringBegin T_InterpolatedStringEnd /\ brackets "("%ch ")"%ch /\
  nest_ok "("%ch ")"%ch C36_text ")"%ch /\ balanced "("%ch ")"%ch (exposed C36_text) /\
  body_text C36_text = s2l "f(g(\(), x)\n" /\ body_bytes C36_text = s2l "f(g((), x)" ++ [10].
Proof.
  split; [apply (op_upper_q "("%ch ")"%ch); constructor|]. split; [constructor|]. split; [|repeat split].
  cbn [nest_ok C36_text map app s2l]. unfold piece_ok.
  repeat (split; [first [left; reflexivity|right; left; reflexivity|right; right]|]); try exact I;
    try (repeat split; try discriminate; intros; discriminate); try (repeat split; discriminate || reflexivity).
  exists 10. unfold named_escapes. cbn [In]. auto 12.
Qed.
(** a{2}\}/ between braces. *)
Definition C36_pattern : list rpiece := map RChar (s2l "a{2}") ++ [REsc "}"%ch; RChar "/"%ch; REsc "d"%ch].
Example C36_regexps_example :
  regexp_opening (s2l "%r{") "{"%ch "}"%ch /\ rnest_ok "{"%ch "}"%ch C36_pattern "}"%ch /\
  balanced "{"%ch "}"%ch (rexposed C36_pattern) /\
  rbody_text C36_pattern = s2l "a{2}\}/\d" /\ rbody_bytes "}"%ch C36_pattern = s2l "a{2}}/\d".
Proof.
  split; [apply (re_percent "{"%ch "}"%ch); constructor|]. split; [|repeat split].
  cbn [rnest_ok C36_pattern map app s2l]. unfold rpiece_ok.
  repeat (split; [first [left; reflexivity|right; left; reflexivity|right; right]|]); try exact I;
    try (repeat split; try discriminate; intros; discriminate).
Qed.
(** <a\>b> and a kept backslash. *)
Definition C36_raw_text : list rpiece := map RChar (s2l "<a") ++ [REsc ">"%ch; REsc "n"%ch] ++ map RChar (s2l "b>").
Example C36_raw_example :
  raw_letter "q"%ch T_String /\ qnest_ok C36_raw_text /\ balanced "<"%ch ">"%ch (rexposed C36_raw_text) /\
  rbody_text C36_raw_text = s2l "<a\>\nb>" /\ qbody_bytes ">"%ch C36_raw_text = s2l "<a>\nb>".
Proof.
  split; [constructor|]. split; [|repeat split].
  unfold qnest_ok, C36_raw_text. cbn [map app s2l]. repeat constructor; discriminate.
Qed.
(** a [b c] d between brackets. *)
Definition C36_list : list (list wpiece * str) :=
  [(map WChar (s2l "a"), s2l " "); (map WChar (s2l "[b"), s2l "  "); (map WChar (s2l "c]"), s2l " "); (map WChar (s2l "d"), [])].
Example C36_words_example :
  array_letter "w"%ch T_PercentLowerW false /\ nwords_ok false "["%ch "]"%ch C36_list /\
  balanced "["%ch "]"%ch (words_exposed C36_list) /\ words_text C36_list = s2l "a [b  c] d".
Proof.
  split; [constructor|]. split; [|repeat split].
  cbn [nwords_ok wnest_ok C36_list map s2l]. unfold wpiece_ok, space.
  repeat match goal with |- _ /\ _ => split end; try discriminate; try exact I;
    try (left; reflexivity); try (right; left; reflexivity); try reflexivity.
  all: try match goal with |- Forall _ _ => repeat apply Forall_cons; try apply Forall_nil; left; reflexivity end.
  all: right; right; cbn; repeat split; try discriminate; try (intros; discriminate); lia.
Qed.

Print Assumptions C36_strings.
Print Assumptions C36_raw.
Print Assumptions C36_regexps.
Print Assumptions C36_words.

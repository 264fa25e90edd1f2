(** * PropArrays: regular expressions, word arrays and literals without an end *)
From Coq Require Import Strings.String NArith ZArith Bool Arith List Lia ZifyBool ZifyNat ZifyN.
From Verif Require Import Base Token Spec SpecLit LexModel LexQuoted LexArray LexUnterminated LexInterp.
Import ListNotations.
Open Scope list_scope.
Open Scope N_scope.

(** ** C22: regular expressions *)

Theorem C22_regexp : forall op a b ps opts fuel,
  regexp_opening op a b -> rbody_ok a b ps -> Forall regexp_option opts -> (4 <= fuel)%nat ->
  exists ts, tokens fuel (op ++ rbody_text ps ++ b :: opts) = Ok ts
    /\ shapes ts = [(T_InterpolatedRegexpBegin, Some [a]); (T_String, Some (rbody_bytes b ps));
                    (T_InterpolatedRegexpEnd, match opts with [] => None | _ => Some opts end); (T_Eof, None)].
Proof. exact regexp_source. Qed.

Example C22_example :
  regexp_opening (s2l "%r{") "{"%ch "}"%ch /\
  rbody_ok "{"%ch "}"%ch [RChar "a"%ch; RChar "#"%ch; REsc "}"%ch; REsc "d"%ch; RChar "/"%ch] /\
  rbody_text [RChar "a"%ch; RChar "#"%ch; REsc "}"%ch; REsc "d"%ch; RChar "/"%ch] = s2l "a#\}\d/"%string /\
  rbody_bytes "}"%ch [RChar "a"%ch; RChar "#"%ch; REsc "}"%ch; REsc "d"%ch; RChar "/"%ch] = s2l "a#}\d/"%string /\
  Forall regexp_option (s2l "mix").
Proof.
  split; [apply (re_percent "{"%ch "}"%ch); constructor|]. split; [repeat split; discriminate|]. split; [reflexivity|]. split; [reflexivity|].
  repeat (constructor; [cbn; tauto|]). constructor.
Qed.

(** ** C23: word arrays *)

Theorem C23_words : forall c t it a b lead ws fuel,
  array_letter c t it -> delimiters a b -> Forall space lead -> words_ok it a b ws -> (length ws + 3 <= fuel)%nat ->
  exists ts, tokens fuel (["%"%ch; c; a] ++ lead ++ words_text ws ++ [b]) = Ok ts
    /\ shapes ts = (t, Some [a]) :: map (fun w => (T_String, Some (word_bytes it (fst w)))) ws
                   ++ [(T_RBracket, None); (T_Eof, None)].
Proof. exact words_source. Qed.

Definition C23_words_sample : list (list wpiece * str) :=
  [([WChar "a"%ch; WEsc " "%ch; WChar "b"%ch], [" "%ch; 10]); ([WChar "#"%ch; WEsc "n"%ch], [])].
Example C23_example :
  array_letter "W"%ch T_PercentUpperW true /\ delimiters "["%ch "]"%ch /\ words_ok true "["%ch "]"%ch C23_words_sample /\
  words_text C23_words_sample = s2l "a\ b "%string ++ [10] ++ s2l "#\n" /\
  map (fun w => word_bytes true (fst w)) C23_words_sample = [s2l "a b"; ["#"%ch; 10]].
Proof.
  split; [constructor|]. split; [constructor|]. split; [|split; reflexivity].
  unfold C23_words_sample, words_ok, word_ok, wpiece_ok, space.
  repeat first [split | (intros; discriminate) | (intros; reflexivity) | lia
    | (constructor; [lia|]) | constructor].
Qed.

(** ** C18: literals without an end *)

Theorem C18_string : forall op a b bt et ps fuel,
  opening op a b bt et -> body_before a b ps 0 -> (2 <= fuel)%nat ->
  exists ts, tokens fuel (op ++ body_text ps) = Ok ts
    /\ shapes ts = [(bt, Some [a]); (T_UnterminatedString, Some (body_bytes ps))].
Proof. exact string_unterminated. Qed.

Theorem C18_single_quoted : forall op a b bytes fuel,
  raw_opening op a b T_String -> raw_writable a b bytes -> (1 <= fuel)%nat ->
  exists ts, tokens fuel (op ++ raw_quoted b bytes) = Ok ts /\ shapes ts = [(T_UnterminatedString, Some [a])].
Proof. exact raw_unterminated. Qed.

Theorem C18_regexp : forall op a b ps fuel,
  regexp_opening op a b -> rbody_before a b ps 0 -> (2 <= fuel)%nat ->
  exists ts, tokens fuel (op ++ rbody_text ps) = Ok ts
    /\ shapes ts = [(T_InterpolatedRegexpBegin, Some [a]); (T_UnterminatedRegexp, Some (rbody_bytes b ps))].
Proof. exact regexp_unterminated. Qed.

Theorem C18_words : forall c t it a b lead ws w fuel,
  array_letter c t it -> delimiters a b -> Forall space lead -> words_ok it a b ws -> Forall (fun w => snd w <> []) ws ->
  word_ok it a b w 0 -> (length ws + 2 <= fuel)%nat ->
  exists ts, tokens fuel (["%"%ch; c; a] ++ lead ++ words_text ws ++ word_text w) = Ok ts
    /\ shapes ts = (t, Some [a]) :: map (fun w => (T_String, Some (word_bytes it (fst w)))) ws
                   ++ [(T_UnterminatedWordArray, Some (word_bytes it w))].
Proof. exact words_unterminated. Qed.

(** Symbols in single quotes are accepted without their end. *)
Theorem C18_symbol_refuted :
  ~ (forall op a b t bytes fuel, raw_opening op a b t -> raw_writable a b bytes -> (2 <= fuel)%nat ->
       forall ts, tokens fuel (op ++ raw_quoted b bytes) = Ok ts -> ~ exists us e, ts = us ++ [e] /\ ty e = T_Eof).
Proof.
  intros H.
  assert (Hw : raw_writable "'"%ch "'"%ch (s2l "foo")) by (repeat (constructor; [split; intros; discriminate|]); constructor).
  assert (E : exists a b, tokens 2 (s2l ":'foo") = Ok [a; b] /\ ty b = T_Eof) by (vm_compute; do 2 eexists; split; reflexivity).
  destruct E as (a & b & E & Eb).
  apply (H (s2l ":'") "'"%ch "'"%ch T_Symbol (s2l "foo") 2%nat raw_symbol Hw (le_n _) [a; b] E).
  exists [a], b. split; [reflexivity|exact Eb].
Qed.

Example C18_example :
  opening (s2l "%(") "("%ch ")"%ch T_InterpolatedStringBegin T_InterpolatedStringEnd /\
  body_before "("%ch ")"%ch [PChar "a"%ch; PChar "#"%ch] 0 /\
  raw_opening (s2l "%q<") "<"%ch ">"%ch T_String /\ raw_writable "<"%ch ">"%ch (s2l "it's>") /\
  rbody_before "/"%ch "/"%ch [RChar "a"%ch; REsc "/"%ch] 0 /\
  words_ok false "("%ch ")"%ch [([WChar "a"%ch], [" "%ch])] /\ word_ok false "("%ch ")"%ch [WChar "b"%ch] 0.
Proof.
  split; [apply (op_percent "("%ch ")"%ch); [constructor|discriminate]|].
  split; [unfold body_before, piece_ok; repeat split; try discriminate; intros; discriminate|].
  split; [apply (raw_q "<"%ch ">"%ch); constructor|].
  split; [repeat (constructor; [split; intros; discriminate|]); constructor|].
  split; [repeat split; discriminate|].
  unfold words_ok, word_ok, wpiece_ok, space. split; repeat split; try discriminate; try (intros; discriminate); try lia.
  constructor; [lia|constructor].
Qed.

(** ** C19: interpolated code *)

(** Code that means the same inside "#{...}" as at top level. *)
Definition same_inside (code : str) : Prop :=
  forall ts ss, tokens 20 code = Ok ts -> shapes ts = ss ++ [(T_Eof, None)] ->
  exists us, tokens 20 ((34 :: s2l "#{") ++ code ++ ["}"%ch; 34]) = Ok us /\ shapes us = interpolation_shapes ss.
(** Division, shift, keys of hashes and imaginary numbers do not. *)
Theorem C19_same_code_refuted :
  ~ same_inside (s2l "1/2") /\ ~ same_inside (s2l "a<<b") /\ ~ same_inside (s2l "{a: 1}"%string) /\ ~ same_inside (s2l "1i").
Proof.
  assert (R : forall code ss us, (exists ts, tokens 20 code = Ok ts /\ shapes ts = ss ++ [(T_Eof, None)]) ->
    tokens 20 ((34 :: s2l "#{") ++ code ++ ["}"%ch; 34]) = Ok us -> shapes us <> interpolation_shapes ss -> ~ same_inside code).
  { intros code ss us (ts & E1 & E2) E3 H4 H. destruct (H ts ss E1 E2) as (us' & E5 & E6). rewrite E3 in E5. injection E5 as <-. auto. }
  repeat split.
  - eapply (R _ [(T_Fixnum, None); (T_Slash, None); (T_Fixnum, None)]);
      [vm_compute; eexists; split; reflexivity|vm_compute; reflexivity|vm_compute; discriminate].
  - eapply (R _ [(T_BareName, Some (s2l "a")); (T_LeftShift, None); (T_BareName, Some (s2l "b"))]);
      [vm_compute; eexists; split; reflexivity|vm_compute; reflexivity|vm_compute; discriminate].
  - eapply (R _ [(T_LCurlyBrace, None); (T_SymbolKey, Some (s2l "a")); (T_Fixnum, None); (T_RCurlyBrace, None)]);
      [vm_compute; eexists; split; reflexivity|vm_compute; reflexivity|vm_compute; discriminate].
  - eapply (R _ [(T_Fixnum, None); (T_Complex, None)]);
      [vm_compute; eexists; split; reflexivity|vm_compute; reflexivity|vm_compute; discriminate].
Qed.

(** A string between braces inside an interpolation swallows the rest of the source. *)
Theorem C19_braces_refuted :
  ~ same_inside (s2l "{ a("%string ++ [34; "x"%ch; 34] ++ s2l ")}"%string).
Proof.
  intros H. destruct (H _ [(T_LCurlyBrace, None); (T_BareName, Some (s2l "a")); (T_LParen, None);
      (T_InterpolatedStringBegin, Some [34]); (T_String, Some (s2l "x")); (T_InterpolatedStringEnd, None);
      (T_RParen, None); (T_RCurlyBrace, None)] ltac:(vm_compute; reflexivity) ltac:(vm_compute; reflexivity)) as (us & E1 & E2).
  vm_compute in E1. injection E1 as <-. vm_compute in E2. discriminate E2.
Qed.

(** Names in #{} give the token they give at top level (see C15_identifier), with
    the text around them as without interpolation. *)
Theorem C19_names : forall op a b bt et xs ps fuel,
  opening op a b bt et -> parts_ok a b xs -> body_ok a b ps -> (length (parts_shapes xs) + 4 <= fuel)%nat ->
  exists ts, tokens fuel (op ++ parts_text xs ++ body_text ps ++ [b]) = Ok ts
    /\ shapes ts = (bt, Some [a]) :: parts_shapes xs ++ content (body_bytes ps) ++ [(et, None); (T_Eof, None)].
Proof. exact parts_source. Qed.

Definition C19_sample : list (list piece * str) :=
  [([PChar "a"%ch; PChar "#"%ch], s2l "foo"); ([], s2l "Bar")].
Example C19_example :
  parts_ok ch_dq ch_dq C19_sample /\ parts_text C19_sample = s2l "a##{foo}#{Bar}" /\
  parts_shapes C19_sample =
    [(T_String, Some (s2l "a#")); (T_EvaluateToStringBegin, None); (T_BareName, Some (s2l "foo")); (T_EvaluateToStringEnd, None);
     (T_EvaluateToStringBegin, None); (T_Constant, Some (s2l "Bar")); (T_EvaluateToStringEnd, None)].
Proof.
  assert (Hn : forall w, existsb (fun p => str_eqb (fst p) w) reserved = false -> forall t, ~ In (w, t) reserved).
  { intros w H t Hin. assert (existsb (fun p => str_eqb (fst p) w) reserved = true); [|congruence].
    apply existsb_exists. exists (w, t). split; [exact Hin|]. apply LexIdent.str_eqb_refl. }
  split; [|split; reflexivity]. unfold parts_ok, C19_sample.
  constructor; [|constructor; [|constructor]]; cbn [fst snd].
  - split; [unfold body_before, piece_ok; repeat split; try discriminate; intros; discriminate|].
    exists "f"%ch, ["o"; "o"]%ch. split; [reflexivity|]. split; [unfold ident_start; lia|]. split; [|apply Hn; reflexivity].
    repeat (constructor; [unfold ident_char, ident_start; lia|]). constructor.
  - split; [exact I|].
    exists "B"%ch, ["a"; "r"]%ch. split; [reflexivity|]. split; [unfold ident_start; lia|]. split; [|apply Hn; reflexivity].
    repeat (constructor; [unfold ident_char, ident_start; lia|]). constructor.
Qed.

Print Assumptions C19_names.
Print Assumptions C22_regexp.
Print Assumptions C23_words.
Print Assumptions C18_string.
Print Assumptions C18_single_quoted.
Print Assumptions C18_regexp.
Print Assumptions C18_words.
Print Assumptions C18_symbol_refuted.
Print Assumptions C19_same_code_refuted.
Print Assumptions C19_braces_refuted.

(** * SpecLit: vocabulary of statements about literals and words *)
From Coq Require Import Strings.String NArith ZArith Bool Arith List Lia.
From Verif Require Import Base Token Spec.
Import ListNotations.
Open Scope N_scope.

(** ** Quoted literals *)

(** What a token says, without its place in the source. *)
Definition shape (t : token) : ttype * option str := (ty t, lit t).
Definition shapes (ts : list token) : list (ttype * option str) := map shape ts.

(** Delimiters of a percent literal.  (A literal delimited by # or by a backslash
    is left out: it has no interpolation or no escapes.) *)
Inductive delimiters : N -> N -> Prop :=
| delim_paren : delimiters "("%ch ")"%ch
| delim_bracket : delimiters "["%ch "]"%ch
| delim_brace : delimiters "{"%ch "}"%ch
| delim_angle : delimiters "<"%ch ">"%ch
| delim_same c : In c (s2l "!""$%&'*+,-./:;=?@^_`|~") -> delimiters c c.

(** How a literal with escapes opens, its delimiters, and its first and last token. *)
Inductive opening : str -> N -> N -> ttype -> ttype -> Prop :=
| op_string : opening (s2l """") """"%ch """"%ch T_InterpolatedStringBegin T_InterpolatedStringEnd
| op_shell : opening (s2l "`") "`"%ch "`"%ch T_InterpolatedShellBegin T_InterpolatedShellEnd
| op_symbol : opening (s2l ":""") """"%ch """"%ch T_InterpolatedSymbolBegin T_InterpolatedSymbolEnd
| op_upper_q a b : delimiters a b -> opening ["%"; "Q"; a]%ch a b T_InterpolatedStringBegin T_InterpolatedStringEnd
| op_percent a b : delimiters a b -> a <> "="%ch -> opening ["%"; a]%ch a b T_InterpolatedStringBegin T_InterpolatedStringEnd
| op_x a b : delimiters a b -> opening ["%"; "x"; a]%ch a b T_InterpolatedShellBegin T_InterpolatedShellEnd.

(** The token holding the bytes of a literal; there is none for an empty one. *)
Definition content (bytes : str) : list (ttype * option str) :=
  match bytes with [] => [] | _ => [(T_String, Some bytes)] end.

(** How a literal without escapes opens, its delimiters, and its token. *)
Inductive raw_opening : str -> N -> N -> ttype -> Prop :=
| raw_quote : raw_opening (s2l "'") "'"%ch "'"%ch T_String
| raw_q a b : delimiters a b -> raw_opening ["%"; "q"; a]%ch a b T_String
| raw_symbol : raw_opening (s2l ":'") "'"%ch "'"%ch T_Symbol
| raw_s a b : delimiters a b -> raw_opening ["%"; "s"; a]%ch a b T_Symbol.

(** Writing bytes so that they survive: a backslash before the closing delimiter
    and before a backslash. *)
Fixpoint raw_quoted (stop : N) (bytes : str) : str :=
  match bytes with
  | [] => []
  | c :: bytes => (if (c =? stop) || (c =? ch_bs) then [ch_bs; c] else [c]) ++ raw_quoted stop bytes
  end.
(** Bytes that can be written so: no NUL, and no opening delimiter if it nests. *)
Definition raw_writable (start stop : N) (bytes : str) : Prop :=
  Forall (fun c => c <> 0 /\ (c = start -> start = stop)) bytes.

(** Writing bytes inside double quotes: a backslash before the delimiters, a
    backslash or #; a newline may stand for itself but not after a backslash. *)
Fixpoint quoted (start stop : N) (bytes : str) : str :=
  match bytes with
  | [] => []
  | c :: bytes =>
    (if (c =? start) || (c =? stop) || (c =? ch_bs) || (c =? "#"%ch) then [ch_bs; c] else [c]) ++ quoted start stop bytes
  end.

(** ** Words *)

(** Characters an identifier starts with, and continues with. *)
Definition ident_start (c : N) : Prop :=
  "a"%ch <= c <= "z"%ch \/ "A"%ch <= c <= "Z"%ch \/ c = "_"%ch \/ 128 <= c.
Definition ident_char (c : N) : Prop := ident_start c \/ "0"%ch <= c <= "9"%ch.
Definition upper (c : N) : Prop := "A"%ch <= c <= "Z"%ch.

(** The reserved words of Ruby and their tokens. *)
Definition reserved : list (str * ttype) :=
  [ (s2l "BEGIN", T_BEGINKeyword); (s2l "END", T_ENDKeyword);
    (s2l "__ENCODING__", T_ENCODINGKeyword); (s2l "__FILE__", T_FILEKeyword); (s2l "__LINE__", T_LINEKeyword);
    (s2l "alias", T_AliasKeyword); (s2l "and", T_AndKeyword); (s2l "begin", T_BeginKeyword); (s2l "break", T_BreakKeyword);
    (s2l "case", T_CaseKeyword); (s2l "class", T_ClassKeyword); (s2l "def", T_DefKeyword); (s2l "defined?", T_DefinedKeyword);
    (s2l "do", T_DoKeyword); (s2l "else", T_ElseKeyword); (s2l "elsif", T_ElsifKeyword); (s2l "end", T_EndKeyword);
    (s2l "ensure", T_EnsureKeyword); (s2l "false", T_FalseKeyword); (s2l "for", T_ForKeyword); (s2l "if", T_IfKeyword);
    (s2l "in", T_InKeyword); (s2l "module", T_ModuleKeyword); (s2l "next", T_NextKeyword); (s2l "nil", T_NilKeyword);
    (s2l "not", T_NotKeyword); (s2l "or", T_OrKeyword); (s2l "redo", T_RedoKeyword); (s2l "rescue", T_RescueKeyword);
    (s2l "retry", T_RetryKeyword); (s2l "return", T_ReturnKeyword); (s2l "self", T_SelfKeyword); (s2l "super", T_SuperKeyword);
    (s2l "then", T_ThenKeyword); (s2l "true", T_TrueKeyword); (s2l "undef", T_UndefKeyword); (s2l "unless", T_UnlessKeyword);
    (s2l "until", T_UntilKeyword); (s2l "when", T_WhenKeyword); (s2l "while", T_WhileKeyword); (s2l "yield", T_YieldKeyword) ].

(** ** Regular expressions and word arrays *)

(** A piece of a regular expression: a character, or a backslash with the
    character it protects. *)
Inductive rpiece := RChar (c : N) | REsc (c : N).
Definition rpiece_text (p : rpiece) : str := match p with RChar c => [c] | REsc c => [ch_bs; c] end.
(** Only the protection of a slash or of the closing delimiter is dropped. *)
Definition rpiece_bytes (stop : N) (p : rpiece) : str :=
  match p with
  | RChar c => [c]
  | REsc c => if (c =? "/"%ch) || (c =? stop) then [c] else [ch_bs; c]
  end.
Definition rpiece_ok (start stop : N) (p : rpiece) (n : N) : Prop :=
  match p with
  | RChar c => c <> 0 /\ c <> ch_bs /\ c <> start /\ c <> stop /\ (c = "#"%ch -> n <> "{"%ch)
  | REsc c => True
  end.
Definition rbody_text (ps : list rpiece) : str := concat (map rpiece_text ps).
Definition rbody_bytes (stop : N) (ps : list rpiece) : str := concat (map (rpiece_bytes stop) ps).
Fixpoint rbody_ok (start stop : N) (ps : list rpiece) : Prop :=
  match ps with
  | [] => True
  | p :: ps => rpiece_ok start stop p (hd stop (rbody_text ps)) /\ rbody_ok start stop ps
  end.
Definition regexp_option (c : N) : Prop := In c (s2l "imxouesn").
Inductive regexp_opening : str -> N -> N -> Prop :=
| re_slash : regexp_opening (s2l "/") "/"%ch "/"%ch
| re_percent a b : delimiters a b -> regexp_opening ["%"; "r"; a]%ch a b.

(** Letters of word arrays, their tokens, and whether backslashes and #{} mean
    what they mean between double quotes. *)
Inductive array_letter : N -> ttype -> bool -> Prop :=
| al_w : array_letter "w"%ch T_PercentLowerW false
| al_i : array_letter "i"%ch T_PercentLowerI false
| al_W : array_letter "W"%ch T_PercentUpperW true
| al_I : array_letter "I"%ch T_PercentUpperI true.
Definition space (c : N) : Prop := c = " "%ch \/ 9 <= c <= 13.
(** A piece of a word and the bytes it denotes. *)
Inductive wpiece := WChar (c : N) | WEsc (c : N).
Definition wpiece_text (p : wpiece) : str := match p with WChar c => [c] | WEsc c => [ch_bs; c] end.
Definition wpiece_bytes (escapes : bool) (p : wpiece) : str :=
  match p with
  | WChar c => [c]
  | WEsc c =>
    if escapes then if c =? "n"%ch then [10] else if c =? "t"%ch then [9] else [c]
    else if (c =? " "%ch) || (9 <=? c) && (c <=? 13) then [c] else [ch_bs; c]
  end.
Definition wpiece_ok (escapes : bool) (start stop : N) (p : wpiece) (n : N) : Prop :=
  match p with
  | WChar c => c <> 0 /\ c <> ch_bs /\ c <> stop /\ (c = start -> start = stop) /\ ~ space c
               /\ (escapes = true -> c = "#"%ch -> n <> "{"%ch)
  | WEsc c => True
  end.
Definition word_text (ps : list wpiece) : str := concat (map wpiece_text ps).
Definition word_bytes (escapes : bool) (ps : list wpiece) : str := concat (map (wpiece_bytes escapes) ps).
(** A word, before the character [n]. *)
Fixpoint word_ok (escapes : bool) (start stop : N) (ps : list wpiece) (n : N) : Prop :=
  match ps with
  | [] => True
  | p :: ps => wpiece_ok escapes start stop p (hd n (word_text ps)) /\ word_ok escapes start stop ps n
  end.
(** Words, each with the non-empty white space behind it; the last word may touch
    the closing delimiter. *)
Fixpoint words_text (ws : list (list wpiece * str)) : str :=
  match ws with [] => [] | (w, sep) :: ws => word_text w ++ sep ++ words_text ws end.
Fixpoint words_ok (escapes : bool) (start stop : N) (ws : list (list wpiece * str)) : Prop :=
  match ws with
  | [] => True
  | (w, sep) :: ws =>
    w <> [] /\ word_ok escapes start stop w (hd stop sep) /\ Forall space sep /\ (sep = [] -> ws = [])
    /\ words_ok escapes start stop ws
  end.

(** ** Literals that are not terminated *)

(** A body before the character [n] (0 at the end of the text). *)
Fixpoint body_before (start stop : N) (ps : list piece) (n : N) : Prop :=
  match ps with
  | [] => True
  | p :: ps => piece_ok start stop p (hd n (body_text ps)) /\ body_before start stop ps n
  end.
Fixpoint rbody_before (start stop : N) (ps : list rpiece) (n : N) : Prop :=
  match ps with
  | [] => True
  | p :: ps => rpiece_ok start stop p (hd n (rbody_text ps)) /\ rbody_before start stop ps n
  end.

(** ** Interpolated code *)

(** The shapes of "#{code}" are those of [code] between the interpolation tokens. *)
Definition interpolation_shapes (ss : list (ttype * option str)) : list (ttype * option str) :=
  (T_InterpolatedStringBegin, Some [ch_dq]) :: (T_EvaluateToStringBegin, None) :: ss
  ++ [(T_EvaluateToStringEnd, None); (T_InterpolatedStringEnd, None); (T_Eof, None)].

(** A name: no keyword, and not followed by anything. *)
Definition plain_name (w : str) : Prop :=
  exists c r, w = c :: r /\ ident_start c /\ Forall ident_char r /\ forall t, ~ In (w, t) reserved.
Definition name_type (w : str) : ttype := if between "A"%ch "Z"%ch (hd 0 w) then T_Constant else T_BareName.
(** Text and names in #{}. *)
Definition parts_text (xs : list (list piece * str)) : str :=
  concat (map (fun x => body_text (fst x) ++ ["#"; "{"]%ch ++ snd x ++ ["}"%ch]) xs).
Definition parts_ok (start stop : N) (xs : list (list piece * str)) : Prop :=
  Forall (fun x => body_before start stop (fst x) "#"%ch /\ plain_name (snd x)) xs.
Definition parts_shapes (xs : list (list piece * str)) : list (ttype * option str) :=
  concat (map (fun x => content (body_bytes (fst x)) ++
    [(T_EvaluateToStringBegin, None); (name_type (snd x), Some (snd x)); (T_EvaluateToStringEnd, None)]) xs).

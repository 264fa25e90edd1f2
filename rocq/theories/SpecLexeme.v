(** * SpecLexeme: texts as sequences of words, numbers and punctuation

    A specification, not a model of code: how the lexical elements of Ruby are
    written, where one of them ends, which blanks may stand between them, and which
    newlines end a line. *)
From Coq Require Import Strings.String NArith ZArith Bool Arith List.
From Verif Require Import Base Token Spec SpecLit.
Import ListNotations.
Open Scope N_scope.
Open Scope list_scope.

(** ** Punctuation *)
Definition punctuation : list (str * ttype) :=
  [ (s2l "=", T_Equal); (s2l "==", T_EqualEqual); (s2l "===", T_EqualEqualEqual); (s2l "=>", T_HashRocket); (s2l "=~", T_Match);
    (s2l "+", T_Plus); (s2l "+=", T_PlusEqual); (s2l "-", T_Minus); (s2l "-=", T_MinusEqual); (s2l "->", T_Arrow);
    (s2l "*", T_Star); (s2l "*=", T_StarEqual); (s2l "**", T_StarStar); (s2l "**=", T_StarStarEqual);
    (s2l "/", T_Slash); (s2l "/=", T_SlashEqual); (s2l "%", T_Percent); (s2l "%=", T_PercentEqual);
    (s2l "!", T_Not); (s2l "!=", T_NotEqual); (s2l "!~", T_NotMatch);
    (s2l "<", T_LessThan); (s2l "<=", T_LessThanOrEqual); (s2l "<=>", T_Comparison); (s2l "<<", T_LeftShift); (s2l "<<=", T_LeftShiftEqual);
    (s2l ">", T_GreaterThan); (s2l ">=", T_GreaterThanOrEqual); (s2l ">>", T_RightShift); (s2l ">>=", T_RightShiftEqual);
    (s2l "&", T_Ampersand); (s2l "&=", T_AmpersandEqual); (s2l "&&", T_AmpersandAmpersand); (s2l "&&=", T_AmpersandAmpersandEqual);
    (s2l "&.", T_SafeNavigation);
    (s2l "|", T_Pipe); (s2l "|=", T_PipeEqual); (s2l "||", T_PipePipe); (s2l "||=", T_PipePipeEqual);
    (s2l "^", T_Caret); (s2l "^=", T_CaretEqual); (s2l "~", T_Tilde);
    (s2l "?", T_TernaryQuestion); (s2l ":", T_TernaryColon); (s2l "::", T_ConstantResolution);
    (s2l ".", T_Dot); (s2l "..", T_DotDot); (s2l "...", T_DotDotDot);
    (s2l "(", T_LParen); (s2l ")", T_RParen); (s2l "{", T_LCurlyBrace); (s2l "}", T_RCurlyBrace);
    (s2l "[", T_LBracket); (s2l "]", T_RBracket); (s2l "[]", T_LBracketRBracket); (s2l "[]=", T_LBracketRBracketEqual);
    (s2l ";", T_Semicolon); (s2l ",", T_Comma) ].

(** In front of [r] nothing longer than [w] can be read: the longest match. *)
Definition longest (w r : str) : Prop :=
  forall w' t r', In (w', t) punctuation -> w ++ r = w' ++ r' -> (length w' <= length w)%nat.

(** ** Lexical elements *)
Inductive lexeme :=
| L_name (w suffix : str)            (** name, Constant, name?, name! *)
| L_keyword (w : str) (t : ttype)
| L_int (ds txt : str)               (** decimal digits, written with underscores *)
| L_float (ds txt fs ftxt : str)     (** 1.25 *)
| L_punct (w : str) (t : ttype)
| L_ivar (w : str)                   (** @w *)
| L_cvar (w : str)                   (** @@w *)
| L_gvar (w : str)                   (** $w *)
| L_symbol (w suffix : str)          (** :w, :w?, :w!, :w= *)
| L_key (w suffix : str)             (** w: and w?: in a hash or a list of arguments *)
| L_string (bytes : str)             (** 'bytes' *)
| L_newline
| L_comment (w : str)                (** # and text behind other tokens *)
| L_exp (ds txt : str) (frac : option (str * str)) (mark : N) (sign es etxt : str)   (** 1e9, 1.5E-3 *)
| L_radix (mark : N) (ds txt : str)  (** 0xFF, 0b1, 0o7, 0d9 *)
| L_special (w : str)                (** $! and $-w *)
| L_match                            (** $& *)
| L_group (ds : str)                 (** $1 *)
| L_char (c : N)                     (** ?c *)
| L_operator (w : str)               (** :+ and :[]= *)
| L_variable (w : str).              (** :@w, :@@w and :$w *)

(** The symbols that name an operator method. *)
Definition operators : list str :=
  map s2l ["+"; "-"; "*"; "/"; "%"; "**"; "+@"; "-@"; "!"; "~"; "=="; "==="; "=~"; "!="; "!~"; "<"; "<="; "<=>"; "<<";
           ">"; ">="; ">>"; "&"; "|"; "^"; "[]"; "[]="]%string.
(** A radix: the letters that announce it, its value, and its digits. *)
Record radix_kind := Radix { marks : list N; base : N; digit : N -> bool; lead : str }.
Definition radices : list radix_kind :=
  let up c n d := (c <=? d) && (d <? c + n) in
  [ Radix ["d"; "D"]%ch 10 (up "0"%ch 10) [];
    Radix ["o"; "O"]%ch 8 (up "0"%ch 8) (s2l "0o");
    Radix ["b"; "B"]%ch 2 (up "0"%ch 2) (s2l "0b");
    Radix ["x"; "X"]%ch 16 (fun d => up "0"%ch 10 d || up "a"%ch 6 d || up "A"%ch 6 d) (s2l "0x") ].
Definition radix_of (mark : N) : option radix_kind := find (fun k => existsb (N.eqb mark) (marks k)) radices.

Definition spelling (l : lexeme) : str :=
  match l with
  | L_name w s => w ++ s
  | L_keyword w _ => w
  | L_int _ txt => txt
  | L_float _ txt _ ftxt => txt ++ "."%ch :: ftxt
  | L_punct w _ => w
  | L_ivar w => "@"%ch :: w
  | L_cvar w => "@"%ch :: "@"%ch :: w
  | L_gvar w => "$"%ch :: w
  | L_symbol w s => ":"%ch :: w ++ s
  | L_key w s => w ++ s ++ [":"%ch]
  | L_string b => "'"%ch :: raw_quoted "'"%ch b ++ ["'"%ch]
  | L_newline => [ch_nl]
  | L_comment w => "#"%ch :: w
  | L_exp _ txt frac m sg _ etxt => txt ++ match frac with Some (_, ftxt) => "."%ch :: ftxt | None => [] end ++ m :: sg ++ etxt
  | L_radix m _ txt => "0"%ch :: m :: txt
  | L_special w => "$"%ch :: w
  | L_match => s2l "$&"
  | L_group ds => "$"%ch :: ds
  | L_char c => ["?"%ch; c]
  | L_operator w | L_variable w => ":"%ch :: w
  end.

(** The token at a line and a column, with or without a blank in front. *)
Definition number_token (v : N) (digits : str) (line col : nat) (ws : bool) : token :=
  if v <=? 2 ^ 62 - 1 then Tok T_Fixnum None None (Z.of_N v) [] line col ws
  else Tok T_Bignum (Some digits) None 0 [] line col ws.
Definition int_token (ds : str) : nat -> nat -> bool -> token := number_token (numval 10 ds) ds.
Definition token_of (l : lexeme) (line col : nat) (ws : bool) : option token :=
  let text t s := Some (Tok t (Some s) None 0 [] line col ws) in
  let mark t := Some (Tok t None None 0 [] line col ws) in
  match l with
  | L_name w s => text (name_type w) (w ++ s)
  | L_keyword _ t => mark t
  | L_int ds _ => Some (int_token ds line col ws)
  | L_float ds _ fs _ => Some (Tok T_Float None None 0 (ds ++ "."%ch :: fs) line col ws)
  | L_punct _ t => mark t
  | L_ivar w => text T_InstanceVariable ("@"%ch :: w)
  | L_cvar w => text T_ClassVariable ("@"%ch :: "@"%ch :: w)
  | L_gvar w => text T_GlobalVariable ("$"%ch :: w)
  | L_symbol w s => text T_Symbol (w ++ s)
  | L_key w s => text T_SymbolKey (w ++ s)
  | L_string b => text T_String b
  | L_newline => mark T_Newline
  | L_comment _ => None
  | L_exp ds _ frac _ sg es _ =>
      Some (Tok T_Float None None 0 (ds ++ match frac with Some (fs, _) => "."%ch :: fs | None => [] end ++ "e"%ch :: sg ++ es) line col ws)
  | L_radix m ds _ =>
      match radix_of m with Some k => Some (number_token (numval (base k) ds) (lead k ++ ds) line col ws) | None => mark T_Invalid end
  | L_special w => text T_GlobalVariable ("$"%ch :: w)
  | L_match => text T_BackRef (s2l "&")
  | L_group ds => Some (Tok T_NthRef None None (Z.of_N (numval 10 ds)) [] line col ws)
  | L_char c => text T_String [c]
  | L_operator w | L_variable w => text T_Symbol w
  end.

(** ** Their form *)
Definition word (w : str) : Prop := exists c r, w = c :: r /\ ident_start c /\ Forall ident_char r.
Definition decimal (c : N) : Prop := "0"%ch <= c <= "9"%ch.
Definition decimals (ds txt : str) : Prop := separated ds txt /\ Forall decimal ds.
Definition suffix (s : str) : Prop := In s [[]; s2l "?"; s2l "!"].
Definition is_reserved (w : str) : Prop := exists t, In (w, t) reserved.
Definition sound (l : lexeme) : Prop :=
  match l with
  | L_name w s => word w /\ (suffix s \/ s = s2l "=")
  | L_key w s => word w /\ suffix s /\ ~ is_reserved (w ++ s)
  | L_keyword w t => In (w, t) reserved /\ t <> T_AliasKeyword /\ t <> T_UndefKeyword
  | L_int ds txt => decimals ds txt /\ (hd 0 ds = "0"%ch -> ds = ["0"%ch] /\ txt = ["0"%ch])
  | L_float ds txt fs ftxt => decimals ds txt /\ decimals fs ftxt /\ (hd 0 ds = "0"%ch -> ds = ["0"%ch] /\ txt = ["0"%ch])
  | L_punct w t => In (w, t) punctuation
  | L_ivar w | L_cvar w | L_gvar w => word w
  | L_symbol w s => word w /\ (suffix s \/ s = s2l "=")
  | L_string b => Forall (fun c => c <> 0) b
  | L_newline => True
  | L_comment w => Forall (fun c => c <> 0 /\ c <> ch_nl /\ c <> ch_cr) w
  | L_exp ds txt frac m sg es etxt =>
      decimals ds txt /\ match frac with Some (fs, ftxt) => decimals fs ftxt | None => True end /\ decimals es etxt /\
      (m = "e"%ch \/ m = "E"%ch) /\ In sg [[]; s2l "+"; s2l "-"] /\ (hd 0 ds = "0"%ch -> ds = ["0"%ch] /\ txt = ["0"%ch])
  | L_radix m ds txt => exists k, radix_of m = Some k /\ separated ds txt /\ Forall (fun c => digit k c = true) ds
  | L_special w =>
      In w (map (fun c => [c]) ["?"; "!"; "="; "@"; "`"; "'"; """"; "+"; "/"; "\"; ";"; "<"; ">"; "$"; "*"; "."; ","; ":"; "~"]%ch) \/
      exists c, w = ["-"%ch; c] /\ ident_char c
  | L_match => True
  | L_group ds => ds <> [] /\ Forall decimal ds /\ hd 0 ds <> "0"%ch /\ numval 10 ds < 2 ^ 63
  | L_char c => c <> 0 /\ c <> " "%ch /\ c <> ch_bs /\ ~ (9 <= c <= 13)
  | L_operator w => In w operators
  | L_variable w => exists s u, w = s ++ u /\ In s [s2l "@"; s2l "@@"; s2l "$"] /\ word u
  end.

(** ** What must not follow *)
(** The text [r] does not continue a word, or one that may take a suffix. *)
Definition ends_word (r : str) : Prop := ~ ident_char (hd 0 r).
Definition ends_number (r : str) : Prop :=
  ~ ident_char (hd 0 r) /\ (hd 0 r = "."%ch -> ~ decimal (hd 0 (tl r))).
Definition blank_next (r : str) : Prop := hd 0 r = " "%ch \/ hd 0 r = ch_nl.
(** A value ends with such a token: a slash behind it divides. *)
Definition ends_value (t : ttype) : bool :=
  match t with
  | T_BareName | T_Constant | T_InstanceVariable | T_ClassVariable | T_GlobalVariable | T_Fixnum | T_Bignum | T_Float
  | T_String | T_Symbol | T_InterpolatedStringEnd | T_InterpolatedSymbolEnd | T_RParen | T_RBracket | T_RCurlyBrace | T_LBracketRBracket | T_EndKeyword | T_NilKeyword
  | T_TrueKeyword | T_FalseKeyword | T_SelfKeyword | T_NthRef | T_BackRef => true
  | _ => false
  end.
Definition numeric (t : ttype) : bool := match t with T_Fixnum | T_Bignum | T_Float => true | _ => false end.
(** A key can only stand where arguments or pairs start. *)
Definition starts_pair (t : ttype) : bool :=
  match t with
  | T_LParen | T_LBracket | T_LCurlyBrace | T_Comma | T_Pipe | T_PipePipe | T_Arrow | T_BareName | T_Constant | T_SuperKeyword => true
  | _ => false
  end.
(** A method name is expected behind such a token; keywords are names there. *)
Definition names_next (t : ttype) : bool :=
  match t with T_DefKeyword | T_Dot | T_ConstantResolution => true | _ => false end.

(** Where an element stands: behind a token of type [prev] (T_Invalid at the
    beginning), where a method name is expected ([naming]), or where a name is read
    together with a "=" behind it ([setter]). *)
Record place := Place { prev : ttype; naming : bool; setter : bool }.
Definition start : place := Place T_Invalid false false.

(** A colon directly behind a double-quoted string makes it a key. *)
Definition apart (p : place) (ws : bool) : Prop := prev p = T_InterpolatedStringEnd -> ws = true.

(** [l] may stand at the place [p], behind a blank if [ws], before the text [r]. *)
Definition fits (p : place) (ws : bool) (l : lexeme) (r : str) : Prop :=
  match l with
  | L_name w s =>
      (numeric (prev p) = true -> hd 0 w <> "i"%ch /\ hd 0 w <> "r"%ch) /\
      (s = s2l "=" -> (setter p = true \/ naming p = true /\ prev p <> T_Dot) /\
        (is_reserved w -> naming p = true /\ w <> s2l "self")) /\
      (s <> s2l "=" -> ends_word r /\ hd 0 r <> "?"%ch /\ hd 0 r <> "!"%ch /\
        (is_reserved (w ++ s) -> naming p = true /\ w ++ s <> s2l "self") /\
        (hd 0 r = ":"%ch -> s = [] /\ hd 0 (tl r) = ":"%ch)) /\
      (s = [] -> hd 0 r = "="%ch -> setter p = false /\ (naming p = true -> prev p = T_Dot))
  | L_keyword w t =>
      (naming p = false \/ t = T_SelfKeyword /\ hd 0 r = "."%ch /\ prev p <> T_Dot /\ prev p <> T_ConstantResolution) /\
      ends_word r /\ ~ In (hd 0 r) ["?"; "!"; ":"]%ch
  | L_int _ _ => ends_number r
  | L_float _ _ _ _ => ~ ident_char (hd 0 r)
  | L_punct w t =>
      longest w r /\
      match t with
      | T_Equal => ~ (exists r', r = s2l "begin" ++ r')
      | T_Plus | T_Minus | T_Not | T_Tilde => naming p = true -> hd 0 r <> "@"%ch
      | T_Slash => ends_value (prev p) = true /\ (hd 0 r = " "%ch \/ ws = false)
      | T_SlashEqual => ends_value (prev p) = true /\ naming p = false
      | T_Percent => blank_next r
      | T_LeftShift => ws = true /\ blank_next r
      | T_TernaryQuestion => blank_next r
      | T_TernaryColon => blank_next r /\ apart p ws
      | _ => True
      end
  | L_ivar _ | L_cvar _ | L_gvar _ => ends_word r
  | L_symbol w s =>
      (s = [] -> ends_word r /\ (In (hd 0 r) ["?"; "!"; "="]%ch -> hd 0 (tl r) = ">"%ch)) /\ (s <> [] -> hd 0 r <> ">"%ch) /\ apart p ws
  | L_key w s => starts_pair (prev p) = true /\ hd 0 r <> ":"%ch
  | L_string _ => hd 0 r <> ":"%ch
  | L_newline => True
  | L_comment _ => prev p <> T_Invalid /\ prev p <> T_Newline /\ (r = [] \/ hd 0 r = ch_nl \/ hd 0 r = ch_cr)
  | L_exp _ _ _ _ _ _ _ => ends_word r
  | L_radix _ _ _ => ends_number r
  | L_special _ | L_match => True
  | L_group _ => ~ decimal (hd 0 r)
  | L_char _ => ends_word r
  | L_operator w =>
      (forall w' r', In w' operators -> w ++ r = w' ++ r' -> (length w' <= length w)%nat) /\ (In w [s2l "!"; s2l "~"] -> hd 0 r <> "@"%ch) /\
      apart p ws
  | L_variable _ => ends_word r /\ apart p ws
  end.

(** ** Texts *)
(** Blanks: spaces, tabs and continued lines. *)
Inductive blanks : str -> Prop :=
| blanks_nil : blanks []
| blanks_space b : blanks b -> blanks (" "%ch :: b)
| blanks_tab b : blanks b -> blanks (ch_tab :: b)
| blanks_line b : blanks b -> blanks (ch_bs :: ch_nl :: b).

Fixpoint written (items : list (str * lexeme)) (tail : str) : str :=
  match items with
  | [] => tail
  | (b, l) :: items => b ++ spelling l ++ written items tail
  end.

(** Behind such a token the line goes on after a newline. *)
Definition opens_line (t : ttype) : bool :=
  match t with
  | T_AmpersandAmpersand | T_AndKeyword | T_Arrow | T_Ampersand | T_Caret | T_CaseKeyword | T_Comma | T_Comparison
  | T_ConstantResolution | T_Dot | T_Equal | T_EqualEqual | T_EqualEqualEqual | T_GreaterThan | T_GreaterThanOrEqual
  | T_HashRocket | T_InKeyword | T_LCurlyBrace | T_LBracket | T_LeftShift | T_LessThan | T_LessThanOrEqual | T_LParen
  | T_Match | T_Minus | T_MinusEqual | T_Not | T_NotEqual | T_NotMatch | T_OrKeyword | T_Percent | T_PercentEqual
  | T_Pipe | T_PipePipe | T_Plus | T_PlusEqual | T_RightShift | T_SafeNavigation | T_Slash | T_SlashEqual | T_Star
  | T_StarEqual | T_StarStar | T_StarStarEqual | T_TernaryColon | T_TernaryQuestion | T_Tilde => true
  | _ => false
  end.
(** In front of such a token too. *)
Definition closes_line (t : ttype) : bool :=
  match t with
  | T_Dot | T_SafeNavigation | T_RCurlyBrace | T_RBracket | T_RParen | T_TernaryColon | T_ThenKeyword => true
  | _ => false
  end.
Definition newline (t : ttype) : bool := match t with T_Newline => true | _ => false end.

Definition lexeme_type (l : lexeme) : option ttype := option_map ty (token_of l 0 0 false).
(** The place behind an element.  Newlines that do not end the line and comments
    leave the last token in sight; a method name is expected by one token only. *)
Definition behind (p : place) (l : lexeme) : place :=
  let keep := naming p && setter p in
  match lexeme_type l with
  | None => Place (prev p) false keep
  | Some t =>
      Place (if newline t && opens_line (prev p) then prev p else t) (names_next t)
        (match t with T_DefKeyword | T_ConstantResolution => true | T_Dot => setter p | _ => keep end)
  end.

Definition blank_before (b : str) : bool := match b with [] => false | _ => true end.
Fixpoint fine (p : place) (items : list (str * lexeme)) (tail : str) : Prop :=
  match items with
  | [] => blanks tail
  | (b, l) :: more =>
      blanks b /\ sound l /\ fits p (blank_before b) l (written more tail) /\ fine (behind p l) more tail
  end.

(** ** The tokens of a text *)
(** All of them, each at its place in the text [src]; the items start at the offset [i]. *)
Fixpoint raw_tokens (src : str) (i : nat) (items : list (str * lexeme)) : list token :=
  match items with
  | [] => []
  | (b, l) :: more =>
      let j := (i + length b)%nat in
      match token_of l (line_of src j) (col_of src j) (blank_before b) with
      | Some t => [t]
      | None => []
      end ++ raw_tokens src (j + length (spelling l)) more
  end.
(** Without the newlines behind a token that opens a line ... *)
Fixpoint drop_after (prev : ttype) (ts : list token) : list token :=
  match ts with
  | [] => []
  | t :: ts => if newline (ty t) && opens_line prev then drop_after prev ts else t :: drop_after (ty t) ts
  end.
(** ... and those in front of a token that closes one. *)
Fixpoint drop_before (ts : list token) : list token :=
  match ts with
  | [] => []
  | t :: ts =>
      let r := drop_before ts in
      if newline (ty t) && match r with u :: _ => closes_line (ty u) | [] => false end then r else t :: r
  end.
Definition end_token (src tail : str) : token :=
  Tok T_Eof None None 0 [] (line_of src (length src)) (col_of src (length src)) (blank_before tail).
Definition tokens_of (items : list (str * lexeme)) (tail : str) : list token :=
  let src := written items tail in
  drop_before (drop_after T_Invalid (raw_tokens src 0 items)) ++ [end_token src tail].

(** What a token says, apart from where it stands. *)
Definition value (t : token) : ttype * option str * option str * Z * str := (ty t, lit t, doc t, fix_ t, dbl t).
Definition heard (l : lexeme) : bool := match l with L_comment _ => false | _ => true end.

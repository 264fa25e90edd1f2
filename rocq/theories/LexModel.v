(** * LexModel: the tokenizer

    Modelled code: /repo/src/lexer.cpp (all of it),
    /repo/include/natalie_parser/lexer.hpp,
    /repo/src/lexer/{interpolated_string,regexp,word_array}_lexer.cpp and their
    headers.  Function by function; loops become recursion on fuel that is
    computed from the remaining input ([NoFuel] is excluded by theorem C01).

    Global simplifications:
    - [size_t] indices, lines, columns and depths are unbounded [nat] (inputs
      shorter than 2^31 bytes), except where the code relies on wrap-around
      (heredoc indentation, remaining method names), which is modelled;
    - [SharedPtr<String>] values are immutable lists of bytes;
    - the file name is omitted. *)
From Coq Require Import Strings.String NArith ZArith Bool Arith List.
From Verif Require Import Base Token.
Import ListNotations.
Open Scope N_scope.

(** ** State *)

(** lexer.hpp 112, 118-119: [m_index], [m_cursor_line], [m_cursor_column]. *)
Record cursor := Cur { c_idx : nat; c_line : nat; c_col : nat }.

(** lexer.hpp 143-146: [m_remaining_method_names], [m_allow_assignment_method],
    [m_method_name_separator], [m_last_method_name].  Of the last only its
    validity is used (lexer.cpp 102-109), so it is a boolean here. *)
Record names := Names {
  n_rem : N;
  n_allow : bool;
  n_sep : ttype;
  n_last : bool;
}.

(** lexer.hpp 109-146: the data members of [Lexer] (except [m_nested_lexer]). *)
Record lx := Lx {
  l_input : str;           (* m_input *)
  l_size : nat;            (* m_size *)
  l_cur : cursor;          (* m_index, m_cursor_line, m_cursor_column *)
  l_heredocs : list nat;   (* m_heredoc_stack, last element first *)
  l_tline : nat;           (* m_token_line *)
  l_tcol : nat;            (* m_token_column *)
  l_ws : bool;             (* m_whitespace_precedes *)
  l_last : token;          (* m_last_token *)
  l_ternary : bool;        (* m_open_ternary *)
  l_stop : N;              (* m_stop_char *)
  l_start : N;             (* m_start_char *)
  l_depth : nat;           (* m_pair_depth; never negative *)
  l_names : names;
}.

(** interpolated_string_lexer.hpp 52-58, regexp_lexer.hpp 26-32. *)
Inductive sstate := InProgress | EvaluateBegin | EvaluateEnd | EndToken | Done.

(** word_array_lexer.hpp 29-38. *)
Inductive wstate :=
| W_InProgress | W_DynamicStringBegin | W_DynamicStringInProgress
| W_DynamicStringEnd | W_EvaluateBegin | W_EvaluateEnd | W_EndToken | W_Done.

(** The dynamic type of a [Lexer] object with its extra data members:
    interpolated_string_lexer.hpp 60-62; regexp_lexer.hpp 34-35;
    word_array_lexer.hpp 46-55 (which shadows m_start_char and m_pair_depth). *)
Inductive kind :=
| KBase
| KStr (st : sstate) (end_type : ttype) (alters : bool)
| KRegexp (st : sstate) (options : str)
| KWords (st : wstate) (interpolated : bool) (start_char : N) (pair_depth : nat) (buffer : str).

(** A lexer with its [m_nested_lexer] (lexer.hpp 134). *)
Inductive lexer := Lexer (f : lx) (k : kind) (nested : option lexer).

(** Field updates. *)
Definition set_cur (f : lx) (c : cursor) : lx :=
  Lx (l_input f) (l_size f) c (l_heredocs f) (l_tline f) (l_tcol f) (l_ws f) (l_last f)
     (l_ternary f) (l_stop f) (l_start f) (l_depth f) (l_names f).
Definition set_heredocs (f : lx) (h : list nat) : lx :=
  Lx (l_input f) (l_size f) (l_cur f) h (l_tline f) (l_tcol f) (l_ws f) (l_last f)
     (l_ternary f) (l_stop f) (l_start f) (l_depth f) (l_names f).
Definition set_tokpos (f : lx) (ws : bool) : lx :=
  Lx (l_input f) (l_size f) (l_cur f) (l_heredocs f) (c_line (l_cur f)) (c_col (l_cur f)) ws (l_last f)
     (l_ternary f) (l_stop f) (l_start f) (l_depth f) (l_names f).
Definition set_last (f : lx) (t : token) : lx :=
  Lx (l_input f) (l_size f) (l_cur f) (l_heredocs f) (l_tline f) (l_tcol f) (l_ws f) t
     (l_ternary f) (l_stop f) (l_start f) (l_depth f) (l_names f).
Definition set_ternary (f : lx) (b : bool) : lx :=
  Lx (l_input f) (l_size f) (l_cur f) (l_heredocs f) (l_tline f) (l_tcol f) (l_ws f) (l_last f)
     b (l_stop f) (l_start f) (l_depth f) (l_names f).
Definition set_stop_char (f : lx) (c : N) : lx :=
  Lx (l_input f) (l_size f) (l_cur f) (l_heredocs f) (l_tline f) (l_tcol f) (l_ws f) (l_last f)
     (l_ternary f) c (l_start f) (l_depth f) (l_names f).
Definition set_start_char (f : lx) (c : N) : lx :=
  Lx (l_input f) (l_size f) (l_cur f) (l_heredocs f) (l_tline f) (l_tcol f) (l_ws f) (l_last f)
     (l_ternary f) (l_stop f) c (l_depth f) (l_names f).
Definition set_depth (f : lx) (d : nat) : lx :=
  Lx (l_input f) (l_size f) (l_cur f) (l_heredocs f) (l_tline f) (l_tcol f) (l_ws f) (l_last f)
     (l_ternary f) (l_stop f) (l_start f) d (l_names f).
Definition set_names (f : lx) (n : names) : lx :=
  Lx (l_input f) (l_size f) (l_cur f) (l_heredocs f) (l_tline f) (l_tcol f) (l_ws f) (l_last f)
     (l_ternary f) (l_stop f) (l_start f) (l_depth f) n.

Notation l_idx f := (c_idx (l_cur f)).

(** lexer.hpp 111-146 default member initialisers; [Token::Type::Invalid] as the
    separator means none. *)
Definition names0 : names := Names 0 false T_Invalid false.

(** lexer.hpp 11-14: [Lexer(input, file)]. *)
Definition new_lx (input : str) : lx :=
  Lx input (length input) (Cur 0 0 0) [] 0 0 false no_token false 0 0 0 names0.

(** lexer.hpp 16-26: [Lexer(other, start_char, stop_char)]. *)
Definition sub_lx (o : lx) (start stop : N) : lx :=
  Lx (l_input o) (l_size o) (l_cur o) [] (l_tline o) (l_tcol o) false no_token false stop start 0 names0.

(** ** Character access *)

(** TM::String::at / operator[] (external/tm is an empty submodule): reading
    beyond the length is outside the contract; modelled by the poison [oob]. *)
Definition at_ (s : str) (i : nat) : N := nth i s oob.

(** lexer.hpp 47-52. *)
Definition current_char (f : lx) : N :=
  if (l_size f <=? l_idx f)%nat then 0 else at_ (l_input f) (l_idx f).

(** lexer.hpp 64-68. *)
Definition peek (f : lx) : N :=
  if (l_size f <=? l_idx f + 1)%nat then 0 else at_ (l_input f) (l_idx f + 1).

(** lexer.cpp 152-161. *)
Definition advance (f : lx) : lx :=
  let c := current_char f in
  set_cur f (if c =? ch_nl
             then Cur (S (l_idx f)) (S (c_line (l_cur f))) 0
             else Cur (S (l_idx f)) (c_line (l_cur f)) (S (c_col (l_cur f)))).

(** lexer.cpp 163-167. *)
Fixpoint advance_n (n : nat) (f : lx) : lx :=
  match n with
  | O => f
  | S n' => advance_n n' (advance f)
  end.

(** lexer.cpp 170-174. [size_t] subtraction; theorem [rewind_exact] shows it
    never wraps where it is called. *)
Definition rewind (n : nat) (f : lx) : lx :=
  set_cur f (Cur (l_idx f - n) (c_line (l_cur f)) (c_col (l_cur f) - n)).

(** lexer.hpp 59-62: [next()] = [advance(); return current_char();] is written
    out as [advance] followed by [current_char]. *)

(** Fuel for loops that advance at least once per iteration. *)
Definition loop_fuel (f : lx) : nat := S (S (l_size f - l_idx f)).

(** lexer.cpp 140-150; the byte count always equals the literal's length. *)
Definition match_ (f : lx) (s : str) : option lx :=
  let n := length s in
  if (l_size f <? l_idx f + n)%nat then None
  else if str_eqb s (firstn n (skipn (l_idx f) (l_input f))) then
    if (l_idx f + n <? l_size f)%nat
       && is_identifier_char_or_message_suffix (at_ (l_input f) (l_idx f + n))
    then None
    else Some (advance_n n f)
  else None.

(** lexer.cpp 176-186 ([Lexer::skip_whitespace]); the derived lexers override it
    with [return false] (interpolated_string_lexer.hpp 39, regexp_lexer.hpp 24,
    word_array_lexer.hpp 24). *)
Fixpoint skip_ws_loop (fuel : nat) (f : lx) (found : bool) : res (bool * lx) :=
  match fuel with
  | O => NoFuel
  | S fuel =>
    let c := current_char f in
    if (c =? " "%ch) || (c =? ch_tab) || ((c =? ch_bs) && (peek f =? ch_nl)) then
      let f := advance f in
      let f := if c =? ch_bs then advance f else f in
      skip_ws_loop fuel f true
    else Ok (found, f)
  end.
Definition skip_whitespace (f : lx) : res (bool * lx) := skip_ws_loop (loop_fuel f) f false.

(** ** Token constructors (token.hpp 162-221) *)

(** [Token { type, m_file, m_token_line, m_token_column, m_whitespace_precedes }] *)
Definition tk (f : lx) (t : ttype) : token :=
  Tok t None None 0 [] (l_tline f) (l_tcol f) (l_ws f).
(** the same with a string / char literal *)
Definition tkl (f : lx) (t : ttype) (s : str) : token :=
  Tok t (Some s) None 0 [] (l_tline f) (l_tcol f) (l_ws f).
(** with a fixnum *)
Definition tkz (f : lx) (t : ttype) (z : Z) : token :=
  Tok t None None z [] (l_tline f) (l_tcol f) (l_ws f).
(** with a double (its text) *)
Definition tkd (f : lx) (t : ttype) (s : str) : token :=
  Tok t None None 0 s (l_tline f) (l_tcol f) (l_ws f).
(** [Token { type, m_file, m_cursor_line, m_cursor_column, ... }] *)
Definition tkc (f : lx) (t : ttype) : token :=
  Tok t None None 0 [] (c_line (l_cur f)) (c_col (l_cur f)) (l_ws f).
Definition tkcl (f : lx) (t : ttype) (s : str) : token :=
  Tok t (Some s) None 0 [] (c_line (l_cur f)) (c_col (l_cur f)) (l_ws f).

(** ** Simple consumers *)

(** The do-while loop shared by consume_word (958-966) and the symbol branches
    (846-848, 852-854, 938-940): append the current char, advance, repeat while
    the new current char satisfies [is_identifier_char]. *)
Fixpoint word_loop (fuel : nat) (f : lx) (buf : str) : res (str * lx) :=
  match fuel with
  | O => NoFuel
  | S fuel =>
    let buf := buf ++ [current_char f] in
    let f := advance f in
    if is_identifier_char (current_char f) then word_loop fuel f buf else Ok (buf, f)
  end.

(** lexer.cpp 958-966. *)
Definition consume_word (f : lx) : res (str * lx) := word_loop (loop_fuel f) f [].

(** lexer.cpp 968-970. *)
Definition consume_word_token (f : lx) (t : ttype) : res (token * lx) :=
  let* (buf, f) := consume_word f in Ok (tkl f t buf, f).

(** lexer.cpp 1668-1676. *)
Fixpoint non_ws_loop (fuel : nat) (f : lx) (buf : str) : res (str * lx) :=
  match fuel with
  | O => NoFuel
  | S fuel =>
    let buf := buf ++ [current_char f] in
    let f := advance f in
    let c := current_char f in
    if negb (c =? 0) && negb (c =? " "%ch) && negb (c =? ch_tab) && negb (c =? ch_nl) && negb (c =? ch_cr)
    then non_ws_loop fuel f buf else Ok (buf, f)
  end.
Definition consume_non_whitespace (f : lx) : res (str * lx) := non_ws_loop (loop_fuel f) f [].

(** lexer.cpp 838-956.  [gobble] (841) appends its argument, which is always the
    current character, and advances. *)
Definition gobble (p : str * lx) : str * lx :=
  let (buf, f) := p in (buf ++ [current_char f], advance f).

Definition consume_symbol (f : lx) : res (token * lx) :=
  let c := current_char f in
  let sym (p : str * lx) := let (buf, f) := p in Ok (tkl f T_Symbol buf, f) in
  let cur (p : str * lx) := current_char (snd p) in
  if c =? "@"%ch then                                         (* 843-849 *)
    let p := gobble ([], f) in
    let p := if cur p =? "@"%ch then gobble p else p in
    let* p := word_loop (loop_fuel (snd p)) (snd p) (fst p) in sym p
  else if c =? "$"%ch then                                    (* 850-855 *)
    let p := gobble ([], f) in
    let* p := word_loop (loop_fuel (snd p)) (snd p) (fst p) in sym p
  else if c =? "~"%ch then                                    (* 856-859 *)
    let p := gobble ([], f) in
    sym (if cur p =? "@"%ch then (fst p, advance (snd p)) else p)
  else if (c =? "+"%ch) || (c =? "-"%ch) then                 (* 860-865 *)
    let p := gobble ([], f) in
    sym (if cur p =? "@"%ch then gobble p else p)
  else if (c =? "&"%ch) || (c =? "|"%ch) || (c =? "^"%ch) || (c =? "%"%ch) || (c =? "/"%ch) then
    sym (gobble ([], f))                                      (* 866-873 *)
  else if c =? "*"%ch then                                    (* 874-878 *)
    let p := gobble ([], f) in
    sym (if cur p =? "*"%ch then gobble p else p)
  else if c =? "="%ch then                                    (* 879-893 *)
    if peek f =? "="%ch then
      let p := gobble (gobble ([], f)) in
      sym (if cur p =? "="%ch then gobble p else p)
    else if peek f =? "~"%ch then sym (gobble (gobble ([], f)))
    else Ok (tkl f T_Invalid [c], f)
  else if c =? "!"%ch then                                    (* 894-904 *)
    let p := gobble ([], f) in
    sym (if (cur p =? "="%ch) || (cur p =? "~"%ch) || (cur p =? "@"%ch) then gobble p else p)
  else if c =? ">"%ch then                                    (* 905-914 *)
    let p := gobble ([], f) in
    sym (if (cur p =? "="%ch) || (cur p =? ">"%ch) then gobble p else p)
  else if c =? "<"%ch then                                    (* 915-927 *)
    let p := gobble ([], f) in
    if cur p =? "="%ch then
      let p := gobble p in
      sym (if cur p =? ">"%ch then gobble p else p)
    else sym (if cur p =? "<"%ch then gobble p else p)
  else if c =? "["%ch then                                    (* 928-936 *)
    if peek f =? "]"%ch then
      let p := gobble (gobble ([], f)) in
      sym (if cur p =? "="%ch then gobble p else p)
    else Ok (tkl f T_Invalid [c], f)
  else                                                        (* 937-953 *)
    let* p := word_loop (loop_fuel f) f [] in
    let c := cur p in
    if (c =? "?"%ch) || (c =? "!"%ch) || (c =? "="%ch) then
      sym (if peek (snd p) =? ">"%ch then p else gobble p)
    else sym p.

(** lexer.cpp 972-1001. *)
Definition consume_bare_name_or_constant (f : lx) (t : ttype) : res (token * lx) :=
  let* (buf, f) := consume_word f in
  let c := current_char f in
  if (c =? "?"%ch) || (c =? "!"%ch) then
    let key := (peek f =? ":"%ch) && can_precede_symbol_key (ty (l_last f)) in
    let f := if key then advance f else f in
    let t := if key then T_SymbolKey else t in
    let f := advance f in
    Ok (tkl f t (buf ++ [c]), f)
  else if c =? "="%ch then
    if n_allow (l_names f) || (negb (is_dot (ty (l_last f))) && (0 <? n_rem (l_names f))) then
      let f := advance f in Ok (tkl f t (buf ++ [c]), f)
    else Ok (tkl f t buf, f)
  else if c =? ":"%ch then
    if negb (peek f =? ":"%ch) && can_precede_symbol_key (ty (l_last f)) then
      let f := advance f in Ok (tkl f T_SymbolKey buf, f)
    else Ok (tkl f t buf, f)
  else Ok (tkl f t buf, f).

(** lexer.cpp 1005-1024: the punctuation that forms a global variable. *)
Definition is_special_global (c : N) : bool :=
  existsb (N.eqb c)
    ["?"; "!"; "="; "@"; "&"; "`"; "'"; """"; "+"; "/"; "\"; ";"; "<"; ">"; "$"; "*"; "."; ","; ":"; "~"]%ch.

(** lexer.cpp 1003-1042. *)
Definition consume_global_variable (f : lx) : res (token * lx) :=
  if is_special_global (peek f) then
    let f := advance f in
    let buf := ["$"%ch; current_char f] in
    let f := advance f in
    Ok (tkl f T_GlobalVariable buf, f)
  else if peek f =? "-"%ch then
    let f := advance_n 2 f in
    let buf := ["$"%ch; "-"%ch; current_char f] in
    let f := advance f in
    Ok (tkl f T_GlobalVariable buf, f)
  else consume_word_token f T_GlobalVariable.

(** ** Numbers *)

(** Value of digits as [strtoll] reads them. *)
Definition digit_val (c : N) : Z :=
  if between "a"%ch "f"%ch c then (Z.of_N c - 97 + 10)%Z
  else if between "A"%ch "F"%ch c then (Z.of_N c - 65 + 10)%Z
  else (Z.of_N c - 48)%Z.
Definition digits_val (base : Z) (s : str) : Z :=
  fold_left (fun acc c => (acc * base + digit_val c)%Z) s 0%Z.

(** lexer.cpp 1319: LLONG_MAX / 2. *)
Definition max_fixnum : Z := 4611686018427387903.
Definition llong_max : Z := 9223372036854775807.

(** C [strtoll] on a string of valid digits: (value, errno <> 0). *)
Definition strtoll (s : str) (base : Z) : Z * bool :=
  let v := digits_val base s in
  if (llong_max <? v)%Z then (llong_max, true) else (v, false).

(** lexer.cpp 1321-1328. *)
Definition chars_to_fixnum_or_bignum_token (f : lx) (chars : str) (base : Z) (offset : nat) : token :=
  let (fixnum, err) := strtoll (skipn offset chars) base in
  if err || (max_fixnum <? fixnum)%Z then tkl f T_Bignum chars else tkz f T_Fixnum fixnum.

(** The do-while digit loop of lexer.cpp 1207-1212, 1230-1235, 1247-1252,
    1264-1269, 1281-1286, 1301-1306, 1335-1340, 1351-1356: append the current
    character, advance, skip one underscore, repeat while a digit follows. *)
Fixpoint digit_loop (fuel : nat) (p : N -> bool) (f : lx) (buf : str) : res (str * lx) :=
  match fuel with
  | O => NoFuel
  | S fuel =>
    let buf := buf ++ [current_char f] in
    let f := advance f in
    let f := if current_char f =? "_"%ch then advance f else f in
    if p (current_char f) then digit_loop fuel p f buf else Ok (buf, f)
  end.

(** lexer.cpp 1330-1360. *)
Definition consume_numeric_as_float (f : lx) (chars : str) : res (token * lx) :=
  let* (chars, f) :=
    if current_char f =? "."%ch then
      let f := advance f in digit_loop (loop_fuel f) isdigit f (chars ++ ["."%ch])
    else Ok (chars, f) in
  let c := current_char f in
  if (c =? "e"%ch) || (c =? "E"%ch) then
    let chars := chars ++ ["e"%ch] in
    let f := advance f in
    let c := current_char f in
    let sign := (c =? "-"%ch) || (c =? "+"%ch) in
    let chars := if sign then chars ++ [c] else chars in
    let f := if sign then advance f else f in
    let c := current_char f in
    if negb (isdigit c) then Ok (tkcl f T_Invalid [c], f)
    else
      let* (chars, f) := digit_loop (loop_fuel f) isdigit f chars in
      Ok (tkd f T_Float chars, f)
  else Ok (tkd f T_Float chars, f).

(** lexer.cpp 1205-1217. *)
Definition consume_decimal (f : lx) : res (token * lx) :=
  let* (chars, f) := digit_loop (loop_fuel f) isdigit f [] in
  let c := current_char f in
  if ((c =? "."%ch) && isdigit (peek f)) || ((c =? "e"%ch) || (c =? "E"%ch))
  then consume_numeric_as_float f chars
  else Ok (chars_to_fixnum_or_bignum_token f chars 10 0, f).

(** lexer.cpp 1225-1289: a prefixed literal; the cursor is on the '0'. *)
Definition consume_prefixed (f : lx) (prefix : str) (p : N -> bool) (base : Z) : res (token * lx) :=
  let f := advance_n 2 f in
  let c := current_char f in
  if negb (p c) then Ok (tkcl f T_Invalid [c], f)
  else
    let* (chars, f) := digit_loop (loop_fuel f) p f prefix in
    Ok (chars_to_fixnum_or_bignum_token f chars base (length prefix), f).

Definition isbinary (c : N) : bool := (c =? "0"%ch) || (c =? "1"%ch).

(** lexer.cpp 1202-1317. *)
Definition consume_numeric (f : lx) : res (token * lx) :=
  if current_char f =? "0"%ch then
    let c := peek f in
    if (c =? "d"%ch) || (c =? "D"%ch) then consume_prefixed f [] isdigit 10
    else if (c =? "o"%ch) || (c =? "O"%ch) then consume_prefixed f ["0"%ch; "o"%ch] isoctal 8
    else if (c =? "x"%ch) || (c =? "X"%ch) then consume_prefixed f ["0"%ch; "x"%ch] isxdigit 16
    else if (c =? "b"%ch) || (c =? "B"%ch) then consume_prefixed f ["0"%ch; "b"%ch] isbinary 2
    else if isdigit c then                                    (* 1293-1307 *)
      if negb (isoctal c) then Ok (tkcl f T_Invalid [c], f)
      else
        let f := advance f in
        let* (chars, f) := digit_loop (loop_fuel f) isoctal f [c] in
        Ok (chars_to_fixnum_or_bignum_token f chars 8 1, f)
    else consume_decimal f
  else consume_decimal f.

(** lexer.cpp 1362-1371.  [long long] arithmetic: overflow is undefined. *)
Fixpoint nth_ref_loop (fuel : nat) (f : lx) (num : Z) : res (Z * lx) :=
  match fuel with
  | O => NoFuel
  | S fuel =>
    let num := (num * 10 + (schar (current_char f) - 48))%Z in
    if (llong_max <? num)%Z then Crash SignedOverflow
    else
      let f := advance f in
      if isdigit (current_char f) then nth_ref_loop fuel f num else Ok (num, f)
  end.
Definition consume_nth_ref (f : lx) : res (token * lx) :=
  let f := advance f in
  let* (num, f) := nth_ref_loop (loop_fuel f) f 0%Z in
  Ok (tkz f T_NthRef num, f).

(** ** Escapes *)

(** lexer.cpp 1373-1390 with [allow_underscore = false] (its only use) and a
    positive [max_length]; [len] is the counter of line 1375. *)
Fixpoint hex_loop (max_length : nat) (f : lx) (number : Z) : Z * lx :=
  let c := current_char f in
  let number := (number * 16 +
    (if between "a"%ch "f"%ch c then schar c - 97 + 10
     else if between "A"%ch "F"%ch c then schar c - 65 + 10
     else schar c - 48))%Z in
  let f := advance f in
  match max_length with
  | O => (number, f)
  | S m => if isxdigit (current_char f) then
             match m with
             | O => (number, f)
             | S _ => hex_loop m f number
             end
           else (number, f)
  end.
(** [consume_hex_number(n)] for n > 0. *)
Definition consume_hex_number (n : nat) (f : lx) : Z * lx := hex_loop n f 0%Z.

(** lexer.cpp 1392-1404, same conventions. *)
Fixpoint oct_loop (max_length : nat) (f : lx) (number : Z) : Z * lx :=
  let c := current_char f in
  let number := (number * 8 + (schar c - 48))%Z in
  let f := advance f in
  match max_length with
  | O => (number, f)
  | S m => if isoctal (current_char f) then
             match m with
             | O => (number, f)
             | S _ => oct_loop m f number
             end
           else (number, f)
  end.
Definition consume_octal_number (n : nat) (f : lx) : Z * lx := oct_loop n f 0%Z.

(** lexer.cpp 1408-1426; the bytes appended to [buf]. *)
Definition utf32_codepoint_to_utf8 (cp : Z) : res str :=
  (if cp <? 0x80 then Ok [to_char cp]
   else if cp <? 0x800 then
     Ok [to_char (Z.lor 0xC0 (Z.shiftr cp 6)); to_char (Z.lor 0x80 (Z.land cp 0x3f))]
   else if cp <? 0x10000 then
     Ok [to_char (Z.lor 0xE0 (Z.shiftr cp 12));
         to_char (Z.lor 0x80 (Z.land (Z.shiftr cp 6) 0x3f));
         to_char (Z.lor 0x80 (Z.land cp 0x3f))]
   else if cp <? 0x200000 then
     Ok [to_char (Z.lor 0xF0 (Z.shiftr cp 18));
         to_char (Z.lor 0x80 (Z.land (Z.shiftr cp 12) 0x3f));
         to_char (Z.lor 0x80 (Z.land (Z.shiftr cp 6) 0x3f));
         to_char (Z.lor 0x80 (Z.land cp 0x3f))]
   else Crash Unreachable)%Z.

(** lexer.cpp 1475-1476: skip blanks between code points. *)
Fixpoint skip_blanks (fuel : nat) (f : lx) : res lx :=
  match fuel with
  | O => NoFuel
  | S fuel => if current_char f =? " "%ch then skip_blanks fuel (advance f) else Ok f
  end.

(** lexer.cpp 1469-1477.  [inl] = the error return of line 1471 (which keeps the
    bytes appended so far). *)
Fixpoint braced_unicode (fuel : nat) (f : lx) (buf : str) : res (bool * str * lx) :=
  match fuel with
  | O => NoFuel
  | S fuel =>
    let c := current_char f in
    if c =? "}"%ch then Ok (true, buf, f)
    else if negb (isxdigit c) then Ok (false, buf, f)
    else
      let (cp, f) := consume_hex_number 6 f in
      let* bytes := utf32_codepoint_to_utf8 cp in
      let* f := skip_blanks (loop_fuel f) f in
      braced_unicode fuel f (buf ++ bytes)
  end.

(** lexer.cpp 1429-1454: the lambda [control_character]; [None] is -1. *)
Definition control_character (meta : bool) (f : lx) : option Z * lx :=
  let f := advance f in
  let f := if current_char f =? "-"%ch then advance f else f in
  let finish (meta : bool) (f : lx) :=
    let c := current_char f in
    let num := Z.of_N (if c =? "?"%ch then 127
                       else if between " "%ch ">"%ch c then c - 32
                       else if between "@"%ch "_"%ch c then c - 64
                       else if between "`"%ch "~"%ch c then c - 96
                       else 0) in
    (Some (if meta then (num + 128)%Z else num), f) in
  if negb meta && (current_char f =? ch_bs) && (peek f =? "M"%ch) then
    let f := advance_n 2 f in
    if negb (current_char f =? "-"%ch) then (None, f)
    else finish true (advance f)
  else finish meta f.

(** Result of consume_escaped_byte: [None] = [{ true, String }], [Some t] =
    [{ false, t }]. *)
Definition esc_result := (option ttype * str * lx)%type.

(** lexer.cpp 1428-1546; [buf] is the buffer appended to. *)
Definition consume_escaped_byte (f : lx) (buf : str) : res esc_result :=
  let c := current_char f in
  let one (b : N) := Ok (None, buf ++ [b], advance f) in      (* 1487-1542, 1543 *)
  if isoctal c then                                           (* 1456-1458 *)
    let (n, f) := consume_octal_number 3 f in Ok (None, buf ++ [to_char n], f)
  else if c =? "x"%ch then                                    (* 1459-1463 *)
    let (n, f) := consume_hex_number 2 (advance f) in Ok (None, buf ++ [to_char n], f)
  else if c =? "u"%ch then                                    (* 1464-1484 *)
    let f := advance f in
    if current_char f =? "{"%ch then
      let f := advance f in
      let* (ok, buf, f) := braced_unicode (loop_fuel f) f buf in
      if ok then Ok (None, buf, advance f)
      else Ok (Some T_InvalidUnicodeEscape, buf, f)
    else
      let (cp, f) := consume_hex_number 4 f in
      let* bytes := utf32_codepoint_to_utf8 cp in
      Ok (None, buf ++ bytes, f)
  else if c =? "a"%ch then one 7
  else if c =? "b"%ch then one 8
  else if (c =? "c"%ch) || (c =? "C"%ch) then                 (* 1493-1500 *)
    match control_character false f with
    | (None, f) => Ok (Some T_InvalidCharacterEscape, buf, f)
    | (Some num, f) => Ok (None, buf ++ [to_char num], advance f)
    end
  else if c =? "e"%ch then one 27
  else if c =? "f"%ch then one 12
  else if c =? "M"%ch then                                    (* 1507-1521 *)
    let f := advance f in
    if negb (current_char f =? "-"%ch) then Ok (Some T_InvalidCharacterEscape, buf, f)
    else
      let f := advance f in
      let c := current_char f in
      if (c =? ch_bs) && ((peek f =? "c"%ch) || (peek f =? "C"%ch)) then
        match control_character true (advance f) with
        | (Some num, f) => Ok (None, buf ++ [to_char num], advance f)
        | (None, f) => Ok (None, buf ++ [255], advance f)  (* (unsigned char)-1; not reachable with meta = true *)
        end
      else Ok (None, buf ++ [to_char (schar c + 128)], advance f)
  else if c =? "n"%ch then one 10
  else if c =? "r"%ch then one 13
  else if c =? "s"%ch then one 32
  else if c =? "t"%ch then one 9
  else if c =? "v"%ch then one 11
  else if c =? ch_nl then Ok (None, buf, advance f)
  else one c.

(** ** Quoted strings *)

(** lexer.cpp 1557-1592 ([int pair_depth] as [nat]). *)
Fixpoint sq_loop (fuel : nat) (f : lx) (start stop : N) (depth : nat) (buf : str) : res (token * lx) :=
  match fuel with
  | O => NoFuel
  | S fuel =>
    let c := current_char f in
    if c =? 0 then Ok (tkl f T_UnterminatedString [start], f)
    else if (c =? ch_bs) && negb (stop =? ch_bs) then
      let f := advance f in
      let c := current_char f in
      let buf := if (c =? stop) || (c =? ch_bs) then buf ++ [c] else buf ++ [ch_bs; c] in
      sq_loop fuel (advance f) start stop depth buf
    else if (c =? start) && negb (start =? stop) then
      sq_loop fuel (advance f) start stop (S depth) (buf ++ [c])
    else if c =? stop then
      match depth with
      | S depth => sq_loop fuel (advance f) start stop depth (buf ++ [c])
      | O =>
        let f := advance f in
        if (current_char f =? ":"%ch) && negb (l_ternary f) then
          let f := advance f in Ok (tkl f T_SymbolKey buf, f)
        else Ok (tkl f T_String buf, f)
      end
    else sq_loop fuel (advance f) start stop depth (buf ++ [c])
  end.
Definition consume_single_quoted_string (f : lx) (start stop : N) : res (token * lx) :=
  sq_loop (loop_fuel f) f start stop 0 [].

(** Result of a function that may install a nested lexer. *)
Definition bres := (token * lx * option lexer)%type.
Definition plain (r : res (token * lx)) : res bres :=
  let* (t, f) := r in Ok (t, f, None).

(** interpolated_string_lexer.hpp 12-18: copy of the parent (including
    m_pair_depth and m_last_token), no nested lexer, new start/stop chars. *)
Definition new_string_lexer (f : lx) (start stop : N) (end_type : ttype) : lexer :=
  Lexer (set_stop_char (set_start_char f (if start =? stop then 0 else start)) stop)
        (KStr InProgress end_type true) None.

(** interpolated_string_lexer.hpp 21-28: heredoc body. *)
Definition new_heredoc_lexer (f : lx) (body : str) (end_type : ttype) : lexer :=
  Lexer (set_cur (new_lx body) (Cur 0 (S (c_line (l_cur f))) 0)) (KStr InProgress end_type false) None.

(** regexp_lexer.hpp 12-17. *)
Definition new_regexp_lexer (f : lx) (start stop : N) : lexer :=
  Lexer (set_stop_char (set_start_char f (if start =? stop then 0 else start)) stop)
        (KRegexp InProgress []) None.

(** word_array_lexer.hpp 12-18: the base m_start_char keeps the parent's value;
    the derived class has its own m_start_char and m_pair_depth. *)
Definition new_words_lexer (f : lx) (start stop : N) (interpolated : bool) : lexer :=
  Lexer (set_stop_char f stop) (KWords W_InProgress interpolated start 0 []) None.

(** lexer.cpp 1552-1555. *)
Definition consume_double_quoted_string (bt et : ttype) (f : lx) (start stop : N) : res bres :=
  Ok (tkl f bt [start], f, Some (new_string_lexer f start stop et)).
(** lexer.cpp 1615-1617. *)
Definition consume_interpolated_string := consume_double_quoted_string T_InterpolatedStringBegin T_InterpolatedStringEnd.
(** lexer.cpp 1619-1621. *)
Definition consume_interpolated_shell := consume_double_quoted_string T_InterpolatedShellBegin T_InterpolatedShellEnd.
(** lexer.cpp 1604-1607. *)
Definition consume_regexp (f : lx) (start stop : N) : res bres :=
  Ok (tkl f T_InterpolatedRegexpBegin [start], f, Some (new_regexp_lexer f start stop)).
(** lexer.cpp 1594-1602, 1623-1637. *)
Definition consume_quoted_array (t : ttype) (interpolated : bool) (f : lx) (start stop : N) : res bres :=
  Ok (tkl f t [start], f, Some (new_words_lexer f start stop interpolated)).
(** lexer.cpp 1609-1613. *)
Definition consume_percent_symbol (f : lx) (start stop : N) : res bres :=
  let* (t, f) := consume_single_quoted_string f start stop in Ok (set_ty t T_Symbol, f, None).

(** lexer.hpp 105-107. *)
Definition char_can_be_string_or_regexp_delimiter (c : N) : bool :=
  between "!"%ch "/"%ch c || (c =? ":"%ch) || (c =? ";"%ch) || (c =? "="%ch) || (c =? "?"%ch)
  || (c =? "@"%ch) || (c =? ch_bs) || (c =? "~"%ch) || (c =? "|"%ch) || between "^"%ch "`"%ch c.

(** lexer.cpp 1639-1666. *)
Definition consume_percent_string (f : lx) (consumer : lx -> N -> N -> res bres) (is_lettered : bool) : res bres :=
  if 0 <? n_rem (l_names f) then Ok (tk f T_Percent, f, None)
  else
    let c := if is_lettered then peek f else current_char f in
    let f' := advance_n (if is_lettered then 2 else 1) f in
    if c =? "["%ch then consumer f' "["%ch "]"%ch
    else if c =? "{"%ch then consumer f' "{"%ch "}"%ch
    else if c =? "<"%ch then consumer f' "<"%ch ">"%ch
    else if c =? "("%ch then consumer f' "("%ch ")"%ch
    else if char_can_be_string_or_regexp_delimiter c then consumer f' c c
    else Ok (tk f T_Percent, f, None).

(** ** Heredocs *)

(** TM::String::ends_with (external). *)
Definition ends_with (s suffix : str) : bool :=
  (length suffix <=? length s)%nat && str_eqb suffix (skipn (length s - length suffix) s).

(** lexer.cpp 1044-1051. *)
Definition is_valid_heredoc (with_dash : bool) (doc name : str) : bool :=
  if negb (ends_with doc name) then false
  else if (length doc - length name =? 0)%nat then true
  else
    let prefix := at_ doc (length doc - length name - 1) in
    if with_dash then isspace prefix else prefix =? ch_nl.

(** [size_t] arithmetic with wrap-around. *)
Definition size_max : N := 18446744073709551615.
Definition wrap (n : N) : N := n mod 18446744073709551616.

(** lexer.cpp 1059-1072: the loop of get_heredoc_indent over the characters. *)
Fixpoint indent_loop (s : str) (heredoc_indent line_indent : N) (maybe_blank_line : bool) : N :=
  match s with
  | [] => heredoc_indent
  | c :: s' =>
    if c =? ch_nl then
      indent_loop s'
        (if negb maybe_blank_line && (line_indent <? heredoc_indent) then line_indent else heredoc_indent)
        0 true
    else if isspace c then
      indent_loop s' heredoc_indent (if maybe_blank_line then line_indent + 1 else line_indent) maybe_blank_line
    else indent_loop s' heredoc_indent line_indent false
  end.

(** lexer.cpp 1053-1074. *)
Definition get_heredoc_indent (doc : str) : N :=
  match doc with [] => 0 | _ => indent_loop doc size_max 0 true end.

(** TM::String::substring(start, length) (external). *)
Definition substring (s : str) (start len : N) : str := firstn (N.to_nat len) (skipn (N.to_nat start) s).

(** lexer.cpp 1082-1091: the loop of dedent_heredoc from position [i]; [rest] is
    the text from [i] on. *)
Fixpoint dedent_loop (doc rest : str) (i : N) (indent line_begin : N) (new_doc : str) : str :=
  match rest with
  | [] => new_doc
  | c :: rest' =>
    if c =? ch_nl then
      let lb := wrap (line_begin + indent) in
      let new_doc := if lb <? i then new_doc ++ substring doc lb (i - lb) else new_doc in
      dedent_loop doc rest' (i + 1) indent (i + 1) (new_doc ++ [ch_nl])
    else dedent_loop doc rest' (i + 1) indent line_begin new_doc
  end.

(** lexer.cpp 1076-1093. *)
Definition dedent_heredoc (doc : str) : str :=
  let indent := get_heredoc_indent doc in
  if indent =? 0 then doc else dedent_loop doc doc 0 indent 0 [].

(** TM::String::strip_trailing_spaces (external): removes trailing ' ' bytes. *)
Fixpoint strip_leading_spaces (s : str) : str :=
  match s with
  | c :: s' => if c =? " "%ch then strip_leading_spaces s' else s
  | [] => []
  end.
Definition strip_trailing_spaces (s : str) : str := rev (strip_leading_spaces (rev s)).

(** lexer.cpp 1133-1145: a quoted heredoc identifier; [None] = unterminated. *)
Fixpoint heredoc_name_loop (fuel : nat) (f : lx) (delim : N) (name : str) : res (option str * lx) :=
  match fuel with
  | O => NoFuel
  | S fuel =>
    let c := current_char f in
    if c =? delim then Ok (Some name, advance f)
    else if (c =? ch_nl) || (c =? ch_cr) || (c =? 0) then Ok (None, f)
    else heredoc_name_loop fuel (advance f) delim (name ++ [c])
  end.

(** lexer.cpp 1152: [get_char]. *)
Definition heredoc_char (f : lx) (i : nat) : N :=
  if (l_size f <=? i)%nat then 0 else at_ (l_input f) i.

(** lexer.cpp 1156-1161: find the start of the next line; [None] = end of input
    (line 1158). *)
Fixpoint next_line_loop (fuel : nat) (f : lx) (i : nat) : res (option nat) :=
  match fuel with
  | O => NoFuel
  | S fuel =>
    if heredoc_char f i =? ch_nl then Ok (Some (S i))
    else if (l_size f <=? i)%nat then Ok None
    else next_line_loop fuel f (S i)
  end.

(** lexer.cpp 1168-1179; [inl doc] = unterminated (line 1172). *)
Fixpoint heredoc_body_loop (fuel : nat) (f : lx) (with_dash : bool) (name : str) (i : nat) (doc : str)
  : res (str + str * nat) :=
  match fuel with
  | O => NoFuel
  | S fuel =>
    if (l_size f <=? i)%nat then
      if is_valid_heredoc with_dash doc name then Ok (inr (doc, i)) else Ok (inl doc)
    else
      let c := heredoc_char f i in
      if (c =? ch_nl) && is_valid_heredoc with_dash doc name then Ok (inr (doc, S i))
      else heredoc_body_loop fuel f with_dash name (S i) (doc ++ [c])
  end.

(** lexer.cpp 1095-1200. *)
Definition consume_heredoc (f : lx) : res bres :=
  let c := current_char f in
  let should_dedent := c =? "~"%ch in
  let with_dash := (c =? "-"%ch) || should_dedent in
  let f := if with_dash then advance f else f in
  let c := current_char f in
  let shell := c =? "`"%ch in
  let bt := if shell then T_InterpolatedShellBegin else T_InterpolatedStringBegin in
  let et := if shell then T_InterpolatedShellEnd else T_InterpolatedStringEnd in
  let should_interpolate := negb (c =? "'"%ch) in
  let* (name, f) :=
    if (c =? """"%ch) || shell || (c =? "'"%ch)
    then let f := advance f in heredoc_name_loop (loop_fuel f) f c []
    else let* (w, f) := consume_word f in Ok (Some w, f) in
  match name with
  | None => Ok (tkl f T_UnterminatedString (s2l "heredoc identifier"), f, None)
  | Some name =>
    let* start :=
      match l_heredocs f with
      | [] => next_line_loop (loop_fuel f) f (l_idx f)
      | last :: _ => Ok (Some last)
      end in
    match start with
    | None => Ok (tkl f T_UnterminatedString (s2l "heredoc"), f, None)
    | Some i =>
      let* r := heredoc_body_loop (S (S (l_size f - i))) f with_dash name i [] in
      match r with
      | inl doc => Ok (tkl f T_UnterminatedString doc, f, None)
      | inr (doc, i) =>
        let doc := strip_trailing_spaces (firstn (length doc - length name) doc) in
        let doc := if should_dedent then dedent_heredoc doc else doc in
        let f := set_heredocs f (i :: l_heredocs f) in
        if should_interpolate
        then Ok (tk f bt, f, Some (new_heredoc_lexer f doc et))
        else Ok (tkl f T_String doc, f, None)
      end
    end
  end.

(** ** Comments *)

(** lexer.cpp 229-232: body of a =begin comment. *)
Fixpoint begin_doc_loop (fuel : nat) (f : lx) (buf : str) : res (str * lx) :=
  match fuel with
  | O => NoFuel
  | S fuel =>
    let buf := buf ++ [current_char f] in
    let f := advance f in
    if current_char f =? 0 then Ok (buf, f)
    else if (c_col (l_cur f) =? 0)%nat then
      match match_ f (s2l "=end") with
      | Some f => Ok (buf, f)
      | None => begin_doc_loop fuel f buf
      end
    else begin_doc_loop fuel f buf
  end.

(** lexer.cpp 665-680: a run of '#' comment lines. *)
Fixpoint hash_doc_loop (fuel : nat) (f : lx) (marker : bool) (buf : str) : res (str * lx) :=
  match fuel with
  | O => NoFuel
  | S fuel =>
    let c := current_char f in
    if c =? 0 then Ok (buf, f)
    else if negb marker && negb (c =? "#"%ch) && negb (isspace c) then Ok (buf, f)
    else
      let marker := marker || (c =? "#"%ch) in
      if (c =? ch_nl) || (c =? ch_cr) then hash_doc_loop fuel (advance f) false (buf ++ [c])
      else hash_doc_loop fuel (advance f) marker (if marker then buf ++ [c] else buf)
  end.

(** lexer.cpp 683-686. *)
Fixpoint comment_loop (fuel : nat) (f : lx) : res lx :=
  match fuel with
  | O => NoFuel
  | S fuel =>
    let f := advance f in
    let c := current_char f in
    if negb (c =? 0) && negb (c =? ch_nl) && negb (c =? ch_cr) then comment_loop fuel f else Ok f
  end.

(** lexer.cpp 634-637: jump behind the pending heredoc bodies. *)
Fixpoint advance_to (fuel : nat) (f : lx) (i : nat) : lx :=
  match fuel with
  | O => f
  | S fuel => if (l_idx f <? i)%nat then advance_to fuel (advance f) i else f
  end.

(** lexer.cpp 1548-1550. *)
Definition token_is_first_on_line (f : lx) : bool :=
  negb (is_valid (ty (l_last f))) || is_newline (ty (l_last f)).

(** ** Keywords *)

(** lexer.cpp 731-812: the chain of [match] calls, in order, as a table. *)
Definition keywords : list (str * ttype) :=
  [ (s2l "__ENCODING__", T_ENCODINGKeyword); (s2l "__LINE__", T_LINEKeyword); (s2l "__FILE__", T_FILEKeyword);
    (s2l "BEGIN", T_BEGINKeyword); (s2l "END", T_ENDKeyword); (s2l "alias", T_AliasKeyword);
    (s2l "and", T_AndKeyword); (s2l "begin", T_BeginKeyword); (s2l "break", T_BreakKeyword);
    (s2l "case", T_CaseKeyword); (s2l "class", T_ClassKeyword); (s2l "defined?", T_DefinedKeyword);
    (s2l "def", T_DefKeyword); (s2l "do", T_DoKeyword); (s2l "else", T_ElseKeyword);
    (s2l "elsif", T_ElsifKeyword); (s2l "end", T_EndKeyword); (s2l "ensure", T_EnsureKeyword);
    (s2l "false", T_FalseKeyword); (s2l "for", T_ForKeyword); (s2l "if", T_IfKeyword);
    (s2l "in", T_InKeyword); (s2l "module", T_ModuleKeyword); (s2l "next", T_NextKeyword);
    (s2l "nil", T_NilKeyword); (s2l "not", T_NotKeyword); (s2l "or", T_OrKeyword);
    (s2l "redo", T_RedoKeyword); (s2l "rescue", T_RescueKeyword); (s2l "retry", T_RetryKeyword);
    (s2l "return", T_ReturnKeyword); (s2l "self", T_SelfKeyword); (s2l "super", T_SuperKeyword);
    (s2l "then", T_ThenKeyword); (s2l "true", T_TrueKeyword); (s2l "undef", T_UndefKeyword);
    (s2l "unless", T_UnlessKeyword); (s2l "until", T_UntilKeyword); (s2l "when", T_WhenKeyword);
    (s2l "while", T_WhileKeyword); (s2l "yield", T_YieldKeyword) ].

Fixpoint match_keyword (f : lx) (ks : list (str * ttype)) : option (ttype * lx) :=
  match ks with
  | [] => None
  | (s, t) :: ks => match match_ f s with Some f => Some (t, f) | None => match_keyword f ks end
  end.

(** lexer.cpp 721-728 and 730-813: the keyword token, if any.  In the first
    branch (self followed by "." or "::") the second chain is still tried when
    no method name is expected, at the position after "self"; it can only match
    there if the text begins with a keyword, which "." and ":" exclude. *)
Definition lex_keyword (f : lx) : option (ttype * lx) :=
  let self :=
    if negb (is_dot (ty (l_last f))) && negb (is_constant_resolution (ty (l_last f))) then
      match match_ f (s2l "self") with
      | Some f' =>
        if (current_char f' =? "."%ch) || ((current_char f' =? ":"%ch) && (peek f' =? ":"%ch))
        then (Some T_SelfKeyword, f')
        else (None, rewind 4 f')
      | None => (None, f)
      end
    else (None, f) in
  let (k, f) := self in
  if n_rem (l_names f) =? 0 then
    match match_keyword f keywords with
    | Some (t, f) => Some (t, f)
    | None => match k with Some t => Some (t, f) | None => None end
    end
  else match k with Some t => Some (t, f) | None => None end.

(** lexer.cpp 721-833: everything after the big switch. *)
Definition lex_word (f : lx) : res bres :=
  match lex_keyword f with
  | Some (t, f) =>
    if (current_char f =? ":"%ch) && negb (peek f =? ":"%ch) && negb (l_ternary f) then
      let f := advance f in
      Ok (tkl f T_SymbolKey (match type_value t with Some v => v | None => [] end), f, None)
    else Ok (tk f t, f, None)
  | None =>
    let c := current_char f in
    if is_name_start_char c then plain (consume_bare_name_or_constant f T_BareName)
    else if between "A"%ch "Z"%ch c then plain (consume_bare_name_or_constant f T_Constant)
    else
      let* (buf, f) := consume_non_whitespace f in
      Ok (tkl f T_Invalid buf, f, None)
  end.

(** ** The big switch *)

(** [return Token { t, ... }] with the current state. *)
Definition ret (f : lx) (t : ttype) : res bres := Ok (tk f t, f, None).

(** lexer.cpp 204-719 (the switch) followed by 721-833.  One branch per case. *)
Definition lex_switch (f : lx) : res bres :=
  let c := current_char f in
  if c =? "="%ch then                                            (* 205-239 *)
    let f := advance f in
    let c := current_char f in
    if c =? "="%ch then
      let f := advance f in
      if current_char f =? "="%ch then ret (advance f) T_EqualEqualEqual else ret f T_EqualEqual
    else if c =? ">"%ch then ret (advance f) T_HashRocket
    else if c =? "~"%ch then ret (advance f) T_Match
    else
      match (if (c_col (l_cur f) =? 1)%nat then match_ f (s2l "begin") else None) with
      | Some f =>
        let* (buf, f) := begin_doc_loop (loop_fuel f) f (s2l "=begin") in
        Ok (tkl f T_Doc (buf ++ s2l "=end" ++ [ch_nl]), f, None)
      | None => ret f T_Equal
      end
  else if c =? "+"%ch then                                       (* 240-256 *)
    let f := advance f in
    let c := current_char f in
    if c =? "="%ch then ret (advance f) T_PlusEqual
    else if (c =? "@"%ch) && (0 <? n_rem (l_names f)) then
      let f := advance f in Ok (tkl f T_OperatorName (s2l "+@"), f, None)
    else ret f T_Plus
  else if c =? "-"%ch then                                       (* 257-276 *)
    let f := advance f in
    let c := current_char f in
    if c =? ">"%ch then ret (advance f) T_Arrow
    else if c =? "="%ch then ret (advance f) T_MinusEqual
    else if (c =? "@"%ch) && (0 <? n_rem (l_names f)) then
      let f := advance f in Ok (tkl f T_OperatorName (s2l "-@"), f, None)
    else ret f T_Minus
  else if c =? "*"%ch then                                       (* 277-294 *)
    let f := advance f in
    let c := current_char f in
    if c =? "*"%ch then
      let f := advance f in
      if current_char f =? "="%ch then ret (advance f) T_StarStarEqual else ret f T_StarStar
    else if c =? "="%ch then ret (advance f) T_StarEqual
    else ret f T_Star
  else if c =? "/"%ch then                                       (* 295-333 *)
    let f := advance f in
    let lt := ty (l_last f) in
    if negb (is_valid lt) then consume_regexp f "/"%ch "/"%ch
    else if 0 <? n_rem (l_names f) then ret f T_Slash
    else match lt with
         | T_Comma | T_Doc | T_Equal | T_LBracket | T_LCurlyBrace | T_LParen
         | T_Match | T_Newline | T_Not | T_Pipe => consume_regexp f "/"%ch "/"%ch
         | _ =>
           let c := current_char f in
           if c =? " "%ch then
             if is_keyword lt && can_precede_regexp_literal lt
             then consume_regexp f "/"%ch "/"%ch else ret f T_Slash
           else if c =? "="%ch then ret (advance f) T_SlashEqual
           else if l_ws f then consume_regexp f "/"%ch "/"%ch
           else ret f T_Slash
         end
  else if c =? "%"%ch then                                       (* 334-360 *)
    let f := advance f in
    let c := current_char f in
    if c =? "="%ch then ret (advance f) T_PercentEqual
    else if c =? "q"%ch then
      consume_percent_string f (fun f a b => plain (consume_single_quoted_string f a b)) true
    else if c =? "Q"%ch then consume_percent_string f consume_interpolated_string true
    else if c =? "r"%ch then consume_percent_string f consume_regexp true
    else if c =? "s"%ch then consume_percent_string f consume_percent_symbol true
    else if c =? "x"%ch then consume_percent_string f consume_interpolated_shell true
    else if c =? "w"%ch then consume_percent_string f (consume_quoted_array T_PercentLowerW false) true
    else if c =? "W"%ch then consume_percent_string f (consume_quoted_array T_PercentUpperW true) true
    else if c =? "i"%ch then consume_percent_string f (consume_quoted_array T_PercentLowerI false) true
    else if c =? "I"%ch then consume_percent_string f (consume_quoted_array T_PercentUpperI true) true
    else consume_percent_string f consume_interpolated_string false
  else if c =? "!"%ch then                                       (* 361-380 *)
    let f := advance f in
    let c := current_char f in
    if c =? "="%ch then ret (advance f) T_NotEqual
    else if c =? "~"%ch then ret (advance f) T_NotMatch
    else if (c =? "@"%ch) && (0 <? n_rem (l_names f)) then
      let f := advance f in Ok (tkl f T_OperatorName (s2l "!@"), f, None)
    else ret f T_Not
  else if c =? "<"%ch then                                       (* 381-438 *)
    let f := advance f in
    let c := current_char f in
    if c =? "<"%ch then
      let f := advance f in
      let c := current_char f in
      if (c =? "~"%ch) || (c =? "-"%ch) then
        let n := peek f in
        if isalpha n || (n =? "_"%ch) || (n =? """"%ch) || (n =? "`"%ch) || (n =? "'"%ch)
        then consume_heredoc f else ret f T_LeftShift
      else if c =? "="%ch then ret (advance f) T_LeftShiftEqual
      else if negb (l_ws f) then
        if token_is_first_on_line f then consume_heredoc f
        else if can_precede_heredoc_that_looks_like_left_shift_operator (ty (l_last f)) then consume_heredoc f
        else ret f T_LeftShift
      else if isalpha c || (c =? "_"%ch) || (c =? """"%ch) || (c =? "`"%ch) || (c =? "'"%ch)
      then consume_heredoc f else ret f T_LeftShift
    else if c =? "="%ch then
      let f := advance f in
      if current_char f =? ">"%ch then ret (advance f) T_Comparison else ret f T_LessThanOrEqual
    else ret f T_LessThan
  else if c =? ">"%ch then                                       (* 439-456 *)
    let f := advance f in
    let c := current_char f in
    if c =? ">"%ch then
      let f := advance f in
      if current_char f =? "="%ch then ret (advance f) T_RightShiftEqual else ret f T_RightShift
    else if c =? "="%ch then ret (advance f) T_GreaterThanOrEqual
    else ret f T_GreaterThan
  else if c =? "&"%ch then                                       (* 457-477 *)
    let f := advance f in
    let c := current_char f in
    if c =? "&"%ch then
      let f := advance f in
      if current_char f =? "="%ch then ret (advance f) T_AmpersandAmpersandEqual else ret f T_AmpersandAmpersand
    else if c =? "="%ch then ret (advance f) T_AmpersandEqual
    else if c =? "."%ch then ret (advance f) T_SafeNavigation
    else ret f T_Ampersand
  else if c =? "|"%ch then                                       (* 478-495 *)
    let f := advance f in
    let c := current_char f in
    if c =? "|"%ch then
      let f := advance f in
      if current_char f =? "="%ch then ret (advance f) T_PipePipeEqual else ret f T_PipePipe
    else if c =? "="%ch then ret (advance f) T_PipeEqual
    else ret f T_Pipe
  else if c =? "^"%ch then                                       (* 496-504 *)
    let f := advance f in
    if current_char f =? "="%ch then ret (advance f) T_CaretEqual else ret f T_Caret
  else if c =? "~"%ch then                                       (* 505-518 *)
    let f := advance f in
    if (current_char f =? "@"%ch) && (0 <? n_rem (l_names f)) then
      let f := advance f in Ok (tkl f T_OperatorName (s2l "~@"), f, None)
    else ret f T_Tilde
  else if c =? "?"%ch then                                       (* 519-536 *)
    let f := advance f in
    let c := current_char f in
    if isspace c || (c =? 0) then
      let f := set_ternary f true in ret f T_TernaryQuestion
    else
      let f := advance f in
      if c =? ch_bs then
        let* (err, buf, f) := consume_escaped_byte f [] in
        match err with
        | Some t => Ok (tkl f t [current_char f], f, None)
        | None => Ok (tkl f T_String buf, f, None)
        end
      else Ok (tkl f T_String [c], f, None)
  else if c =? ":"%ch then                                       (* 537-558 *)
    let f := advance f in
    let c := current_char f in
    if c =? ":"%ch then ret (advance f) T_ConstantResolution
    else if ttype_eqb (ty (l_last f)) T_InterpolatedStringEnd && negb (l_ws f) && negb (l_ternary f)
    then ret f T_InterpolatedStringSymbolKey
    else if c =? """"%ch then
      consume_double_quoted_string T_InterpolatedSymbolBegin T_InterpolatedSymbolEnd (advance f) """"%ch """"%ch
    else if c =? "'"%ch then
      let* (t, f) := consume_single_quoted_string (advance f) "'"%ch "'"%ch in
      Ok (tkl f T_Symbol (cstr (literal_or_blank t)), f, None)
    else if isspace c || (c =? 0) then
      let f := set_ternary f false in ret f T_TernaryColon
    else plain (consume_symbol f)
  else if c =? "@"%ch then                                       (* 559-570 *)
    if peek f =? "@"%ch then
      let* (t, f) := consume_word_token (advance f) T_ClassVariable in
      Ok (set_lit t ("@"%ch :: cstr (literal_or_blank t)), f, None)
    else plain (consume_word_token f T_InstanceVariable)
  else if c =? "$"%ch then                                       (* 571-579 *)
    if peek f =? "&"%ch then
      let f := advance_n 2 f in Ok (tkl f T_BackRef ["&"%ch], f, None)
    else if between "1"%ch "9"%ch (peek f) then plain (consume_nth_ref f)
    else plain (consume_global_variable f)
  else if c =? "."%ch then                                       (* 580-594 *)
    let f := advance f in
    if current_char f =? "."%ch then
      let f := advance f in
      if current_char f =? "."%ch then ret (advance f) T_DotDotDot else ret f T_DotDot
    else ret f T_Dot
  else if c =? "{"%ch then ret (advance f) T_LCurlyBrace         (* 595-597 *)
  else if c =? "["%ch then                                       (* 598-615 *)
    let f := advance f in
    if current_char f =? "]"%ch then
      let f := advance f in
      if current_char f =? "="%ch then ret (advance f) T_LBracketRBracketEqual else ret f T_LBracketRBracket
    else ret f T_LBracket
  else if c =? "("%ch then ret (advance f) T_LParen              (* 616-620 *)
  else if c =? "}"%ch then ret (advance f) T_RCurlyBrace         (* 621-623 *)
  else if c =? "]"%ch then ret (advance f) T_RBracket            (* 624-626 *)
  else if c =? ")"%ch then ret (advance f) T_RParen              (* 627-629 *)
  else if c =? ch_nl then                                        (* 630-640 *)
    let f := advance f in
    let t := tk f T_Newline in
    match l_heredocs f with
    | [] => Ok (t, f, None)
    | i :: _ => Ok (t, set_heredocs (advance_to (i - l_idx f) f i) [], None)
    end
  else if c =? ";"%ch then ret (advance f) T_Semicolon           (* 641-643 *)
  else if c =? ","%ch then ret (advance f) T_Comma               (* 644-646 *)
  else if c =? """"%ch then consume_interpolated_string (advance f) """"%ch """"%ch   (* 647-649 *)
  else if c =? "'"%ch then plain (consume_single_quoted_string (advance f) "'"%ch "'"%ch)  (* 650-652 *)
  else if c =? "`"%ch then                                       (* 653-661 *)
    let f := advance f in
    if 0 <? n_rem (l_names f) then Ok (tkl f T_OperatorName (s2l "`"), f, None)
    else consume_interpolated_shell f "`"%ch "`"%ch
  else if c =? "#"%ch then                                       (* 662-688 *)
    if token_is_first_on_line f then
      let* (buf, f) := hash_doc_loop (loop_fuel f) f true [] in
      Ok (tkl f T_Doc buf, f, None)
    else
      let* f := comment_loop (loop_fuel f) f in ret f T_Comment
  else if isdigit c then plain (consume_numeric f)               (* 689-701 *)
  else if (c =? "i"%ch) && can_be_complex_or_rational (ty (l_last f)) && negb (isalnum (peek f)) then
    ret (advance f) T_Complex                                    (* 702-707 *)
  else if (c =? "r"%ch) && can_be_complex_or_rational (ty (l_last f)) && (peek f =? "i"%ch) then
    ret (advance_n 2 f) T_RationalComplex                        (* 708-712 *)
  else if (c =? "r"%ch) && can_be_complex_or_rational (ty (l_last f)) && negb (isalnum (peek f)) then
    ret (advance f) T_Rational                                   (* 713-718 *)
  else lex_word f.

(** lexer.cpp 188-203: entry of Lexer::build_next_token. *)
Definition build_base (f : lx) : res bres :=
  if (l_size f <=? l_idx f)%nat then Ok (tkc f T_Eof, f, None)
  else if negb (l_start f =? 0) && (current_char f =? l_start f) then
    lex_switch (set_depth f (S (l_depth f)))
  else if negb (l_stop f =? 0) && (current_char f =? l_stop f) then
    match l_depth f with
    | O => Ok (tkc f T_Eof, f, None)
    | S d => lex_switch (set_depth f d)
    end
  else if (l_idx f =? 0)%nat && (current_char f =? 0xEF) then
    let f := advance f in
    let f := if current_char f =? 0xBB then advance f else f in
    let f := if current_char f =? 0xBF then advance f else f in
    lex_switch f
  else lex_switch f.

(** ** Nested lexers *)

(** Result of a nested lexer's build_next_token: token, fields, kind, nested. *)
Definition kres := (token * lx * kind * option lexer)%type.

(** interpolated_string_lexer.cpp 71-75. *)
Definition str_start_evaluation (f : lx) (et : ttype) (al : bool) : res kres :=
  Ok (tk f T_EvaluateToStringBegin, f, KStr EvaluateEnd et al,
      Some (Lexer (sub_lx f "{"%ch "}"%ch) KBase None)).

(** interpolated_string_lexer.cpp 83-86. *)
Definition str_finish (f : lx) (et : ttype) (al : bool) : res kres :=
  Ok (tkc f et, f, KStr Done et al, None).

(** interpolated_string_lexer.cpp 22-69 (state InProgress). *)
Fixpoint str_loop (fuel : nat) (f : lx) (et : ttype) (al : bool) (buf : str) : res kres :=
  match fuel with
  | O => NoFuel
  | S fuel =>
    let c := current_char f in
    if c =? 0 then                                               (* 60-68 *)
      if l_stop f =? 0 then
        let f := advance f in
        Ok (tkl f T_String buf, f, KStr EndToken et al, None)
      else Ok (tkl f T_UnterminatedString buf, f, KStr InProgress et al, None)
    else if (c =? ch_bs) && negb (l_stop f =? ch_bs) then        (* 25-29 *)
      let* (err, buf, f) := consume_escaped_byte (advance f) buf in
      match err with
      | Some t => Ok (tkcl f t [current_char f], f, KStr InProgress et al, None)
      | None => str_loop fuel f et al buf
      end
    else if (c =? "#"%ch) && (peek f =? "{"%ch) then             (* 30-38 *)
      let f := advance_n 2 f in
      match buf with
      | [] => str_start_evaluation f et al
      | _ => Ok (tkl f T_String buf, f, KStr EvaluateBegin et al, None)
      end
    else if (c =? l_start f) && negb (l_start f =? l_stop f) then  (* 39-42 *)
      str_loop fuel (advance (set_depth f (S (l_depth f)))) et al (buf ++ [c])
    else if c =? l_stop f then                                   (* 43-53 *)
      let f := advance f in
      match l_depth f with
      | S d => str_loop fuel (set_depth f d) et al (buf ++ [c])
      | O =>
        match buf with
        | [] => str_finish f et al
        | _ => Ok (tkl f T_String buf, f, KStr EndToken et al, None)
        end
      end
    else str_loop fuel (advance f) et al (buf ++ [c])            (* 54-57 *)
  end.

(** interpolated_string_lexer.cpp 6-20. *)
Definition build_str (f : lx) (st : sstate) (et : ttype) (al : bool) : res kres :=
  match st with
  | InProgress => str_loop (loop_fuel f) f et al []
  | EvaluateBegin => str_start_evaluation f et al
  | EvaluateEnd =>                                               (* 77-81 *)
    let f := advance f in
    Ok (tk f T_EvaluateToStringEnd, f, KStr InProgress et al, None)
  | EndToken => str_finish f et al
  | Done => Ok (tkc f T_Eof, f, KStr Done et al, None)
  end.

(** regexp_lexer.cpp 85-93. *)
Definition is_regexp_option (c : N) : bool := existsb (N.eqb c) ["i"; "m"; "x"; "o"; "u"; "e"; "s"; "n"]%ch.
Fixpoint options_loop (fuel : nat) (f : lx) (buf : str) : res (str * lx) :=
  match fuel with
  | O => NoFuel
  | S fuel =>
    let c := current_char f in
    if is_regexp_option c then options_loop fuel (advance f) (buf ++ [c]) else Ok (buf, f)
  end.
Definition consume_options (f : lx) : res (str * lx) := options_loop (loop_fuel f) f [].

(** regexp_lexer.cpp 38-83. *)
Fixpoint regexp_loop (fuel : nat) (f : lx) (opts buf : str) : res kres :=
  match fuel with
  | O => NoFuel
  | S fuel =>
    let c := current_char f in
    if c =? 0 then Ok (tkl f T_UnterminatedRegexp buf, f, KRegexp InProgress opts, None)
    else if (c =? ch_bs) && negb (l_stop f =? ch_bs) then        (* 41-56 *)
      let f := advance f in
      let c := current_char f in
      let buf := if (c =? "/"%ch) || (c =? l_stop f) then buf ++ [c] else buf ++ [ch_bs; c] in
      regexp_loop fuel (advance f) opts buf
    else if (c =? "#"%ch) && (peek f =? "{"%ch) then             (* 57-62 *)
      let f := advance_n 2 f in
      Ok (tkl f T_String buf, f, KRegexp EvaluateBegin opts, None)
    else if (c =? l_start f) && negb (l_start f =? l_stop f) then  (* 63-66 *)
      regexp_loop fuel (advance (set_depth f (S (l_depth f)))) opts (buf ++ [c])
    else if c =? l_stop f then                                   (* 67-76 *)
      let f := advance f in
      match l_depth f with
      | S d => regexp_loop fuel (set_depth f d) opts (buf ++ [c])
      | O =>
        let* (opts, f) := consume_options f in
        Ok (tkl f T_String buf, f, KRegexp EndToken opts, None)
      end
    else regexp_loop fuel (advance f) opts (buf ++ [c])
  end.

(** regexp_lexer.cpp 6-36.  [m_options] starts as a null pointer, which is
    treated like the empty string (line 28). *)
Definition build_regexp (f : lx) (st : sstate) (opts : str) : res kres :=
  match st with
  | InProgress => regexp_loop (loop_fuel f) f opts []
  | EvaluateBegin =>                                             (* 10-14: copy of *this *)
    Ok (tk f T_EvaluateToStringBegin, f, KRegexp EvaluateEnd opts,
        Some (Lexer (set_stop_char f "}"%ch) KBase None))
  | EvaluateEnd =>                                               (* 15-24 *)
    let f := advance f in
    if current_char f =? l_stop f then
      let f := advance f in
      let* (opts, f) := consume_options f in
      Ok (tk f T_EvaluateToStringEnd, f, KRegexp EndToken opts, None)
    else Ok (tk f T_EvaluateToStringEnd, f, KRegexp InProgress opts, None)
  | EndToken =>                                                  (* 25-31 *)
    let t := tkc f T_InterpolatedRegexpEnd in
    Ok (match opts with [] => t | _ => set_lit t opts end, f, KRegexp Done opts, None)
  | Done => Ok (tkc f T_Eof, f, KRegexp Done opts, None)
  end.

Definition w_in_dynamic (st : wstate) : bool :=
  match st with W_DynamicStringInProgress => true | _ => false end.

(** word_array_lexer.cpp 115-122. *)
Definition dynamic_string_finish (f : lx) (it : bool) (start : N) (d : nat) (buf : str) : res kres :=
  match buf with
  | [] => Ok (tk f T_InterpolatedStringEnd, f, KWords W_InProgress it start d buf, None)
  | _ => Ok (tkcl f T_String buf, f, KWords W_DynamicStringEnd it start d buf, None)
  end.

(** word_array_lexer.cpp 38-101 (states InProgress and DynamicStringInProgress);
    [start] and [d] are the members m_start_char and m_pair_depth of the derived
    class. *)
Fixpoint array_loop (fuel : nat) (f : lx) (st : wstate) (it : bool) (start : N) (d : nat) (buf : str) : res kres :=
  match fuel with
  | O => NoFuel
  | S fuel =>
    let c := current_char f in
    if c =? 0 then Ok (tkl f T_UnterminatedWordArray buf, f, KWords st it start d buf, None)
    else if (c =? ch_bs) && negb (l_stop f =? ch_bs) then        (* 41-66 *)
      let f := advance f in
      let c := current_char f in
      let f := advance f in
      let buf :=
        if c =? " "%ch then buf ++ [c]
        else if it then
          if c =? "n"%ch then buf ++ [ch_nl] else if c =? "t"%ch then buf ++ [ch_tab] else buf ++ [c]
        else if isspace c then buf ++ [c] else buf ++ [ch_bs; c] in
      array_loop fuel f st it start d buf
    else if isspace c then                                       (* 67-77 *)
      if w_in_dynamic st then dynamic_string_finish (advance f) it start d buf
      else match buf with
           | [] => array_loop fuel (advance f) st it start d buf
           | _ => Ok (tkcl f T_String buf, advance f, KWords st it start d buf, None)
           end
    else if it && (c =? "#"%ch) && (peek f =? "{"%ch) then       (* 78-79, 103-107 *)
      let f := advance_n 2 f in
      Ok (tkc f T_InterpolatedStringBegin, f, KWords W_DynamicStringBegin it start d buf, None)
    else if (c =? start) && negb (start =? l_stop f) then        (* 80-83 *)
      array_loop fuel (advance f) st it start (S d) (buf ++ [c])
    else if c =? l_stop f then                                   (* 84-93 *)
      match d with
      | S d => array_loop fuel (advance f) st it start d (buf ++ [c])
      | O =>
        if w_in_dynamic st then dynamic_string_finish f it start 0 buf
        else                                                     (* 124-132 *)
          let f := advance f in
          match buf with
          | [] => Ok (tkc f T_RBracket, f, KWords W_Done it start 0 buf, None)
          | _ => Ok (tkcl f T_String buf, f, KWords W_EndToken it start 0 buf, None)
          end
      end
    else array_loop fuel (advance f) st it start d (buf ++ [c])
  end.

(** word_array_lexer.cpp 6-36, 109-113. *)
Definition build_words (f : lx) (st : wstate) (it : bool) (start : N) (d : nat) (buf : str) : res kres :=
  match st with
  | W_InProgress | W_DynamicStringInProgress => array_loop (loop_fuel f) f st it start d []
  | W_DynamicStringBegin =>
    Ok (tkl f T_String buf, f, KWords W_EvaluateBegin it start d buf, None)
  | W_DynamicStringEnd =>
    if current_char f =? l_stop f then
      let f := advance f in
      Ok (tk f T_InterpolatedStringEnd, f, KWords W_EndToken it start d buf, None)
    else Ok (tk f T_InterpolatedStringEnd, f, KWords W_InProgress it start d buf, None)
  | W_EvaluateBegin =>
    Ok (tk f T_EvaluateToStringBegin, f, KWords W_EvaluateEnd it start d buf,
        Some (Lexer (sub_lx f "{"%ch "}"%ch) KBase None))
  | W_EvaluateEnd =>
    let f := advance f in
    Ok (tk f T_EvaluateToStringEnd, f, KWords W_DynamicStringInProgress it start d buf, None)
  | W_EndToken => Ok (tkc f T_RBracket, f, KWords W_Done it start d buf, None)
  | W_Done => Ok (tkc f T_Eof, f, KWords W_Done it start d buf, None)
  end.

(** Virtual dispatch of build_next_token (lexer.hpp 71). *)
Definition build (f : lx) (k : kind) : res kres :=
  match k with
  | KBase => let* (t, f, n) := build_base f in Ok (t, f, KBase, n)
  | KStr st et al => build_str f st et al
  | KRegexp st opts => build_regexp f st opts
  | KWords st it start d buf => build_words f st it start d buf
  end.

(** Virtual dispatch of skip_whitespace (lexer.hpp 70). *)
Definition skip_ws (f : lx) (k : kind) : res (bool * lx) :=
  match k with KBase => skip_whitespace f | _ => Ok (false, f) end.

(** lexer.hpp 44, interpolated_string_lexer.hpp 30. *)
Definition alters_parent (l : lexer) : bool :=
  match l with Lexer _ (KStr _ _ al) _ => al | _ => true end.
Definition lexer_cur (l : lexer) : cursor := match l with Lexer f _ _ => l_cur f end.

(** lexer.cpp 84-117: method-name bookkeeping after each own token. *)
Definition update_names (n : names) (t : ttype) : names :=
  match t with
  | T_AliasKeyword => Names 2 (n_allow n) (n_sep n) (n_last n)
  | T_ConstantResolution | T_DefKeyword => Names 1 true (n_sep n) (n_last n)
  | T_Dot => Names 1 (n_allow n) (n_sep n) (n_last n)
  | T_UndefKeyword => Names size_max (n_allow n) T_Comma (n_last n)
  | _ =>
    if negb (ttype_eqb (n_sep n) T_Invalid) then
      if n_last n then
        if negb (ttype_eqb t (n_sep n)) then Names 0 (n_allow n) T_Invalid false
        else Names (n_rem n) (n_allow n) (n_sep n) false
      else Names (n_rem n) (n_allow n) (n_sep n) (is_valid t)
    else if 0 <? n_rem n then Names (n_rem n - 1) (n_allow n) (n_sep n) (n_last n)
    else Names (n_rem n) false (n_sep n) (n_last n)
  end.

(** lexer.cpp 80-118: the part of next_token after the nested lexer. *)
Definition next_own (f : lx) (k : kind) : res (token * lexer) :=
  let* (ws, f) := skip_ws f k in
  let f := set_tokpos f ws in
  let* (t, f, k, n) := build f k in
  Ok (t, Lexer (set_names f (update_names (l_names f) (ty t))) k n).

(** lexer.cpp 65-119. *)
Fixpoint next_token (l : lexer) : res (token * lexer) :=
  match l with
  | Lexer f k None => next_own f k
  | Lexer f k (Some n) =>
    let* (t, n) := next_token n in
    if is_eof (ty t) then
      next_own (if alters_parent n then set_cur f (lexer_cur n) else f) k
    else Ok (t, Lexer f k (Some n))
  end.

(** ** tokens() *)

(** lexer.cpp 39-40: drop trailing newlines (the vector is kept reversed). *)
Fixpoint pop_newlines (acc : list token) : list token :=
  match acc with
  | t :: acc' => if is_newline (ty t) then pop_newlines acc' else acc
  | [] => []
  end.

(** [m_last_token = token] (line 53) on the outermost lexer. *)
Definition record_last (l : lexer) (t : token) : lexer :=
  match l with Lexer f k n => Lexer (set_last f t) k n end.

(** lexer.cpp 13-63.  [acc] is the token vector reversed; [skip] is
    skip_next_newline; [pending] is the literal of last_doc_token (only its
    validity and literal are used).  Fuel bounds the number of tokens. *)
Fixpoint tokens_loop (fuel : nat) (l : lexer) (acc : list token) (skip : bool) (pending : option str)
  : res (list token) :=
  match fuel with
  | O => NoFuel
  | S fuel =>
    let* (t, l) := next_token l in
    if is_comment (ty t) then tokens_loop fuel l acc skip pending
    else if is_doc (ty t) then
      tokens_loop fuel l acc skip
        (Some (match pending with Some d => d ++ literal_or_blank t | None => literal_or_blank t end))
    else if skip && is_newline (ty t) then tokens_loop fuel l acc skip pending
    else
      let acc := if can_follow_collapsible_newline (ty t) then pop_newlines acc else acc in
      let '(t, pending) :=
        match pending with
        | Some d =>
          if can_have_doc (ty t) then (set_doc t d, None)
          else if negb (is_end_of_line (ty t)) then (t, None)
          else (t, pending)
        | None => (t, pending)
        end in
      let acc := t :: acc in
      if is_eof (ty t) then Ok (rev acc)
      else if negb (is_valid (ty t)) then Ok (rev acc)
      else tokens_loop fuel (record_last l t) acc (can_precede_collapsible_newline (ty t)) pending
  end.

(** lexer.hpp 11-14 + lexer.cpp 13: [Lexer { input, file }.tokens()]. *)
Definition tokens (fuel : nat) (input : str) : res (list token) :=
  tokens_loop fuel (Lexer (new_lx input) KBase None) [] false None.

(** * Base: bytes, C character classes, outcomes

    Modelled code: /repo/src/lexer.cpp lines 121-138 (character predicates) and
    the C library functions isalnum/isalpha/isdigit/isxdigit/isspace it uses.

    A C++ [char] is represented by its byte value 0..255 as an [N].  The value
    [256] ([oob]) is a poison value that stands for "read outside the string":
    it is never produced by a correct read (theorem C06). *)
From Coq Require Import NArith ZArith List Bool Strings.String Strings.Byte Strings.Ascii.
Import ListNotations.

(** Character literals: ["x"%ch] elaborates to the numeral of the byte. *)
Definition parse_ch (l : list byte) : option N :=
  match l with [b] => Some (Byte.to_N b) | _ => None end.
Definition print_ch (n : N) : option (list byte) :=
  match Byte.of_N n with Some b => Some [b] | None => None end.
Declare Scope ch_scope.
Delimit Scope ch_scope with ch.
String Notation N parse_ch print_ch : ch_scope.

Open Scope N_scope.
Open Scope bool_scope.

Definition char := N.
Definition str := list N.

(** [s2l "abc"]: the bytes of a C string literal (no embedded NUL). *)
Fixpoint s2l (s : string) : str :=
  match s with
  | EmptyString => []
  | String a s' => N_of_ascii a :: s2l s'
  end.

(** Reading outside a string (undefined behaviour / assertion failure in
    TM::String::at).  Simplification: a poison value instead of an abort, so
    that it is visible in every literal it would reach. *)
Definition oob : N := 256.

(** Special bytes (C escapes). *)
Definition ch_nul : N := 0.
Definition ch_tab : N := 9.
Definition ch_nl : N := 10.
Definition ch_cr : N := 13.
Definition ch_dq : N := 34.
Definition ch_bs : N := 92.

(** C locale [isdigit], [isalpha], [isalnum], [isxdigit], [isspace] (C library;
    used throughout /repo/src/lexer.cpp).  Bytes >= 128 (negative chars) are in
    no class, as in the C locale. *)
Definition between (a b c : N) : bool := (a <=? c) && (c <=? b).
Definition isdigit (c : N) : bool := between "0"%ch "9"%ch c.
Definition isalpha (c : N) : bool := between "a"%ch "z"%ch c || between "A"%ch "Z"%ch c.
Definition isalnum (c : N) : bool := isalpha c || isdigit c.
Definition isxdigit (c : N) : bool :=
  isdigit c || between "a"%ch "f"%ch c || between "A"%ch "F"%ch c.
Definition isspace (c : N) : bool := between 9 13 c || (c =? 32).

(** [c >= '0' && c <= '7'] (lexer.cpp 1245, 1252, 1402, 1456). *)
Definition isoctal (c : N) : bool := between "0"%ch "7"%ch c.

(** lexer.cpp 121-124.  [(unsigned int)c >= 128] holds for every negative char,
    i.e. every byte >= 128. *)
Definition is_name_start_char (c : N) : bool :=
  if c =? 0 then false
  else between "a"%ch "z"%ch c || (c =? "_"%ch) || (128 <=? c).

(** lexer.cpp 126-129. *)
Definition is_identifier_char (c : N) : bool :=
  if c =? 0 then false
  else isalnum c || (c =? "_"%ch) || (128 <=? c).

(** lexer.cpp 131-134. *)
Definition is_message_suffix (c : N) : bool :=
  if c =? 0 then false else (c =? "?"%ch) || (c =? "!"%ch).

(** lexer.cpp 136-138. *)
Definition is_identifier_char_or_message_suffix (c : N) : bool :=
  is_identifier_char c || is_message_suffix c.

(** Value of a [char] as a signed integer (x86-64 [char] is signed). *)
Definition schar (c : N) : Z := if c <? 128 then Z.of_N c else (Z.of_N c - 256)%Z.

(** Conversion of an integer to [char] ([append_char(number)]). *)
Definition to_char (z : Z) : N := Z.to_N (z mod 256)%Z.

(** Equality of byte strings. *)
Fixpoint str_eqb (a b : str) : bool :=
  match a, b with
  | [], [] => true
  | x :: a', y :: b' => (x =? y) && str_eqb a' b'
  | _, _ => false
  end.

(** What a C function reading the string as [const char *] sees. *)
Fixpoint cstr (s : str) : str :=
  match s with
  | [] => []
  | c :: s' => if c =? 0 then [] else c :: cstr s'
  end.

(** Reasons for which the process aborts or behaves undefinedly. *)
Inductive reason :=
| Unreachable        (** TM_UNREACHABLE(): abort *)
| SignedOverflow     (** undefined behaviour: signed integer overflow *)
| NullDeref          (** undefined behaviour: null pointer / missing literal *)
| VectorRange        (** assertion: vector access or pop out of range *).

(** Outcomes of a C++ function: normal return, thrown SyntaxError (parser only),
    abort / undefined behaviour, or fuel of the model exhausted (excluded by
    theorems). *)
Inductive res (A : Type) : Type :=
| Ok (a : A)
| Crash (r : reason)
| NoFuel.
Arguments Ok {A} a.
Arguments Crash {A} r.
Arguments NoFuel {A}.

Definition bind {A B} (m : res A) (k : A -> res B) : res B :=
  match m with
  | Ok a => k a
  | Crash r => Crash r
  | NoFuel => NoFuel
  end.
Notation "'let*' p ':=' m 'in' k" := (bind m (fun p => k))
  (at level 200, p pattern, m at level 100, k at level 200, right associativity).

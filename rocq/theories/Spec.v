(** * Spec: vocabulary of the statements, independent of the model

    Only bytes ([Base]) and tokens ([Token]) are used here; nothing refers to the
    lexer or the parser. *)
From Coq Require Import Strings.String NArith ZArith Bool List.
From Verif Require Import Base Token.
Import ListNotations.
Open Scope N_scope.

(** ** Texts *)

Definition bytes (s : str) : Prop := Forall (fun c => c < 256) s.
(** Every string in memory is this short ([size_t] offsets, [ptrdiff_t] differences). *)
Definition small (s : str) : Prop := N.of_nat (length s) < 2 ^ 63.
Definition contains (w s : str) : Prop := exists l r, s = l ++ w ++ r.

(** Value of a digit character and of a numeral, most significant digit first. *)
Definition dval (c : N) : N :=
  if c <=? 57 then c - 48 else if c <=? 70 then c - 55 else c - 87.
Fixpoint numval_from (base acc : N) (s : str) : N :=
  match s with
  | [] => acc
  | c :: s' => numval_from base (acc * base + dval c) s'
  end.
Definition numval (base : N) (s : str) : N := numval_from base 0 s.

(** [separated ds txt]: [txt] is [ds] with at most one underscore between
    neighbouring digits. *)
Inductive separated : str -> str -> Prop :=
| sep_one d : separated [d] [d]
| sep_next d ds txt : separated ds txt -> separated (d :: ds) (d :: txt)
| sep_under d ds txt : separated ds txt -> separated (d :: ds) (d :: "_"%ch :: txt).

(** The value Kernel#Integer gives to the text of a bignum token
    (ext/natalie_parser/mri_creator.hpp 64-68 calls rb_Integer on it). *)
Definition ruby_integer (s : str) : N :=
  match s with
  | 48 :: 120 :: ds => numval 16 ds
  | 48 :: 111 :: ds => numval 8 ds
  | 48 :: 98 :: ds => numval 2 ds
  | 48 :: ds => numval 8 ds
  | _ => numval 10 s
  end.
(** The integer a token stands for. *)
Definition int_value (t : token) : option N :=
  match ty t with
  | T_Fixnum => if (0 <=? fix_ t)%Z then Some (Z.to_N (fix_ t)) else None
  | T_Bignum => match lit t with Some s => Some (ruby_integer s) | None => None end
  | _ => None
  end.

(** ** Positions *)

Fixpoint newlines (s : str) : nat :=
  match s with [] => 0 | c :: s' => (if c =? ch_nl then 1 else 0) + newlines s' end.
(** Characters since the last newline. *)
Fixpoint since_newline (s : str) (acc : nat) : nat :=
  match s with [] => acc | c :: s' => since_newline s' (if c =? ch_nl then 0 else S acc) end.
(** Line and column (both from 0) of the offset [i] of [s]; offsets beyond the end
    are counted as if the last line went on. *)
Definition line_of (s : str) (i : nat) : nat := newlines (firstn i s).
Definition col_of (s : str) (i : nat) : nat := since_newline (firstn i s) 0 + (i - length s).

Definition tok_at (s : str) (t : token) : Prop :=
  exists i, tk_line t = line_of s i /\ tk_col t = col_of s i.

(** ** Token vectors *)

(** An error token, as the Ruby API sees it: its type has no name. *)
Definition error_token (t : token) : Prop := type_value (ty t) = None.
Definition final_token (t : token) : Prop := ty t = T_Eof \/ error_token t.

(** [a] stands immediately before [b]. *)
Definition adjacent (a b : token) (ts : list token) : Prop := exists l r, ts = l ++ a :: b :: r.

(** ** Evidence for a crash *)

(** The text contains u{ ... followed by at most six hex digits denoting a number
    of at least 0x200000. *)
Definition cp_evidence (s : str) : Prop :=
  exists mid ds,
    contains ("u"%ch :: "{"%ch :: mid ++ ds) s /\
    Forall (fun c => isxdigit c = true \/ c = 32) mid /\
    (length ds <= 6)%nat /\ Forall (fun c => isxdigit c = true) ds /\
    0x200000 <= numval 16 ds.
(** The text contains $ followed by digits denoting a number of at least 2^63. *)
Definition nth_evidence (s : str) : Prop :=
  exists ds, contains ("$"%ch :: ds) s /\ Forall (fun c => isdigit c = true) ds /\
    2 ^ 63 <= numval 10 ds.
Definition crash_ev (s : str) (r : reason) : Prop :=
  match r with
  | Unreachable => cp_evidence s
  | SignedOverflow => nth_evidence s
  | _ => False
  end.

(** ** Nesting of literals *)

(** The token that must close a literal; a word array is closed by a plain ]. *)
Definition closer (t : ttype) : option ttype :=
  match t with
  | T_InterpolatedStringBegin => Some T_InterpolatedStringEnd
  | T_InterpolatedShellBegin => Some T_InterpolatedShellEnd
  | T_InterpolatedSymbolBegin => Some T_InterpolatedSymbolEnd
  | T_InterpolatedRegexpBegin => Some T_InterpolatedRegexpEnd
  | T_EvaluateToStringBegin => Some T_EvaluateToStringEnd
  | T_PercentLowerW | T_PercentUpperW | T_PercentLowerI | T_PercentUpperI => Some T_RBracket
  | _ => None
  end.
Definition is_closer (t : ttype) : bool :=
  match t with
  | T_InterpolatedStringEnd | T_InterpolatedShellEnd | T_InterpolatedSymbolEnd
  | T_InterpolatedRegexpEnd | T_EvaluateToStringEnd => true
  | _ => false
  end.
(** One token of a bracket checker whose stack holds the closers still expected.
    A ] that does not close a word array is an ordinary token. *)
Definition scan1 (t : ttype) (st : list ttype) : option (list ttype) :=
  match closer t with
  | Some c => Some (c :: st)
  | None =>
    if is_closer t then
      match st with
      | c :: st' => if ttype_eqb c t then Some st' else None
      | [] => None
      end
    else match t, st with
         | T_RBracket, T_RBracket :: st' => Some st'
         | _, _ => Some st
         end
  end.
Fixpoint scan (ts : list ttype) (st : list ttype) : option (list ttype) :=
  match ts with
  | [] => Some st
  | t :: ts' => match scan1 t st with Some st' => scan ts' st' | None => None end
  end.
(** Every begin is closed by its own end, properly nested. *)
Definition balanced (ts : list token) : Prop := scan (map ty ts) [] = Some [].
(** Where the lexer misbehaves: a string opened directly after the end of an
    interpolation, which happens for a second interpolation in a word of %W or %I. *)
Definition second_interpolation (ts : list token) : Prop :=
  exists a b, adjacent a b ts /\ ty a = T_EvaluateToStringEnd /\ ty b = T_InterpolatedStringBegin.

(** ** String literals *)

(** UTF-8 encoding of a code point below 2^21. *)
Definition utf8 (cp : N) : str :=
  if cp <? 0x80 then [cp]
  else if cp <? 0x800 then [192 + cp / 64; 128 + cp mod 64]
  else if cp <? 0x10000 then [224 + cp / 4096; 128 + cp / 64 mod 64; 128 + cp mod 64]
  else [240 + cp / 262144; 128 + cp / 4096 mod 64; 128 + cp / 64 mod 64; 128 + cp mod 64].
(** Decoding of one encoded code point. *)
Definition utf8_decode (s : str) : option N :=
  let cont c := (128 <=? c) && (c <? 192) in
  match s with
  | [a] => if a <? 0x80 then Some a else None
  | [a; b] => if between 192 223 a && cont b then Some ((a - 192) * 64 + (b - 128)) else None
  | [a; b; c] =>
    if between 224 239 a && cont b && cont c then Some ((a - 224) * 4096 + (b - 128) * 64 + (c - 128)) else None
  | [a; b; c; d] =>
    if between 240 247 a && cont b && cont c && cont d
    then Some ((a - 240) * 262144 + (b - 128) * 4096 + (c - 128) * 64 + (d - 128)) else None
  | _ => None
  end.

(** A piece of the body of a double-quoted string. *)
Inductive piece :=
| PChar (c : N)            (* a character standing for itself *)
| PQuoted (c : N)          (* \c where c stands for itself *)
| PNamed (c : N)           (* \n, \t, ... *)
| PJoin                    (* \ and a newline: nothing *)
| POct (ds : str)          (* \ooo *)
| PHex (ds : str)          (* \xhh *)
| PUni (ds : str)          (* \uhhhh *)
| PBraced (dss : list str) (* \u{h h h} *)
| PCtrl (dash : bool) (c : N)      (* \cX or \C-X *)
| PMeta (c : N)                    (* \M-X *)
| PMetaCtrl (dash : bool) (c : N)  (* \M-\cX or \M-\C-X *).

Fixpoint blank_separated (dss : list str) : str :=
  match dss with
  | [] => []
  | [ds] => ds
  | ds :: dss => ds ++ " "%ch :: blank_separated dss
  end.
Definition ctrl_text (dash : bool) (c : N) : str := if dash then ["C"%ch; "-"%ch; c] else ["c"%ch; c].
(** How it is written. *)
Definition piece_text (p : piece) : str :=
  match p with
  | PChar c => [c]
  | PQuoted c => [ch_bs; c]
  | PNamed c => [ch_bs; c]
  | PJoin => [ch_bs; ch_nl]
  | POct ds => ch_bs :: ds
  | PHex ds => ch_bs :: "x"%ch :: ds
  | PUni ds => ch_bs :: "u"%ch :: ds
  | PBraced dss => ch_bs :: "u"%ch :: "{"%ch :: blank_separated dss ++ ["}"%ch]
  | PCtrl dash c => ch_bs :: ctrl_text dash c
  | PMeta c => [ch_bs; "M"%ch; "-"%ch; c]
  | PMetaCtrl dash c => ch_bs :: "M"%ch :: "-"%ch :: ch_bs :: ctrl_text dash c
  end.
(** The named escapes. *)
Definition named_escapes : list (N * N) :=
  [("a"%ch, 7); ("b"%ch, 8); ("e"%ch, 27); ("f"%ch, 12); ("n"%ch, 10); ("r"%ch, 13); ("s"%ch, 32); ("t"%ch, 9); ("v"%ch, 11)].
Definition ctrl_value (c : N) : N := if c =? "?"%ch then 127 else c mod 32.
(** The bytes it denotes. *)
Definition piece_bytes (p : piece) : str :=
  match p with
  | PChar c | PQuoted c => [c]
  | PNamed c => match find (fun q => fst q =? c) named_escapes with Some (_, v) => [v] | None => [] end
  | PJoin => []
  | POct ds => [numval 8 ds mod 256]
  | PHex ds => [numval 16 ds]
  | PUni ds => utf8 (numval 16 ds)
  | PBraced dss => concat (map (fun ds => utf8 (numval 16 ds)) dss)
  | PCtrl _ c => [ctrl_value c]
  | PMeta c => [c + 128]
  | PMetaCtrl _ c => [ctrl_value c + 128]
  end.
(** Characters that mean something special after a backslash. *)
Definition escape_letter (c : N) : bool :=
  isoctal c || existsb (N.eqb c) (s2l "xuabcCefMnrstv") || (c =? ch_nl).
Definition hex_digits (lo hi : nat) (ds : str) : Prop :=
  (lo <= length ds <= hi)%nat /\ Forall (fun c => isxdigit c = true) ds.
Definition ctrl_char (c : N) : Prop := 32 <= c <= 126 /\ c <> ch_bs.
(** [p] is well formed before the character [n], in a string delimited by [start]
    and [stop]. *)
Definition piece_ok (start stop : N) (p : piece) (n : N) : Prop :=
  match p with
  | PChar c => c <> 0 /\ c <> ch_bs /\ c <> start /\ c <> stop /\ (c = "#"%ch -> n <> "{"%ch)
  | PQuoted c => c <> 0 /\ escape_letter c = false
  | PNamed c => exists v, In (c, v) named_escapes
  | PJoin => True
  | POct ds => (1 <= length ds <= 3)%nat /\ Forall (fun c => isoctal c = true) ds /\ ((length ds < 3)%nat -> isoctal n = false)
  | PHex ds => hex_digits 1 2 ds /\ ((length ds < 2)%nat -> isxdigit n = false)
  | PUni ds => hex_digits 1 4 ds /\ ((length ds < 4)%nat -> isxdigit n = false)
  | PBraced dss => dss <> [] /\ Forall (fun ds => hex_digits 1 6 ds /\ numval 16 ds < 0x200000) dss
  | PCtrl dash c => ctrl_char c /\ (dash = false -> c <> "-"%ch)
  | PMeta c => 0 < c < 128 /\ c <> ch_bs
  | PMetaCtrl dash c => ctrl_char c /\ (dash = false -> c <> "-"%ch)
  end.
Definition body_text (ps : list piece) : str := concat (map piece_text ps).
Definition body_bytes (ps : list piece) : str := concat (map piece_bytes ps).
Fixpoint body_ok (start stop : N) (ps : list piece) : Prop :=
  match ps with
  | [] => True
  | p :: ps => piece_ok start stop p (hd stop (body_text ps)) /\ body_ok start stop ps
  end.

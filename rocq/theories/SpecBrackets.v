(** * SpecBrackets: brackets inside bracketed literals *)
From Coq Require Import Strings.String NArith Bool Arith List.
From Verif Require Import Base Token Spec SpecLit.
Import ListNotations.
Open Scope N_scope.

(** Delimiters that nest. *)
Inductive brackets : N -> N -> Prop :=
| br_paren : brackets "("%ch ")"%ch
| br_bracket : brackets "["%ch "]"%ch
| br_brace : brackets "{"%ch "}"%ch
| br_angle : brackets "<"%ch ">"%ch.

(** How many of the brackets [a]...[b] are open behind the characters [cs] if [d] are
    open before them; nothing if one is closed that was not opened. *)
Fixpoint open_after (a b : N) (d : nat) (cs : list N) : option nat :=
  match cs with
  | [] => Some d
  | c :: cs =>
    if c =? a then open_after a b (S d) cs
    else if c =? b then match d with S d => open_after a b d cs | O => None end
    else open_after a b d cs
  end.
(** Every bracket opened is closed and the other way round. *)
Definition balanced (a b : N) (cs : list N) : Prop := open_after a b 0 cs = Some 0%nat.

(** The characters that no backslash protects. *)
Definition exposed (ps : list piece) : list N := concat (map (fun p => match p with PChar c => [c] | _ => [] end) ps).
Definition rexposed (ps : list rpiece) : list N := concat (map (fun p => match p with RChar c => [c] | _ => [] end) ps).
Definition wexposed (ps : list wpiece) : list N := concat (map (fun p => match p with WChar c => [c] | _ => [] end) ps).

(** Bodies in which the delimiters may stand for themselves, before the character [n]. *)
Fixpoint nest_ok (a b : N) (ps : list piece) (n : N) : Prop :=
  match ps with
  | [] => True
  | p :: ps => (p = PChar a \/ p = PChar b \/ piece_ok a b p (hd n (body_text ps))) /\ nest_ok a b ps n
  end.
Fixpoint rnest_ok (a b : N) (ps : list rpiece) (n : N) : Prop :=
  match ps with
  | [] => True
  | p :: ps => (p = RChar a \/ p = RChar b \/ rpiece_ok a b p (hd n (rbody_text ps))) /\ rnest_ok a b ps n
  end.
Fixpoint wnest_ok (escapes : bool) (a b : N) (ps : list wpiece) (n : N) : Prop :=
  match ps with
  | [] => True
  | p :: ps => (p = WChar a \/ p = WChar b \/ wpiece_ok escapes a b p (hd n (word_text ps))) /\ wnest_ok escapes a b ps n
  end.
Fixpoint nwords_ok (escapes : bool) (a b : N) (ws : list (list wpiece * str)) : Prop :=
  match ws with
  | [] => True
  | (w, sep) :: ws =>
    w <> [] /\ wnest_ok escapes a b w (hd b sep) /\ Forall space sep /\ (sep = [] -> ws = []) /\ nwords_ok escapes a b ws
  end.
Definition words_exposed (ws : list (list wpiece * str)) : list N := concat (map (fun w => wexposed (fst w)) ws).

(** Literals without escapes: a character, or a backslash with the character behind
    it; the backslash is dropped before the closing delimiter and a backslash. *)
Definition qpiece_bytes (stop : N) (p : rpiece) : str :=
  match p with
  | RChar c => [c]
  | REsc c => if (c =? stop) || (c =? ch_bs) then [c] else [ch_bs; c]
  end.
Definition qbody_bytes (stop : N) (ps : list rpiece) : str := concat (map (qpiece_bytes stop) ps).
Definition qnest_ok (ps : list rpiece) : Prop :=
  Forall (fun p => match p with RChar c => c <> 0 /\ c <> ch_bs | REsc c => c <> 0 end) ps.
Inductive raw_letter : N -> ttype -> Prop :=
| rl_q : raw_letter "q"%ch T_String
| rl_s : raw_letter "s"%ch T_Symbol.

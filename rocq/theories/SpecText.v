(** * SpecText: texts with interpolated strings

    A specification, not a model of code: texts made of the lexical elements of
    [SpecLexeme] and of double-quoted literals, in which code may be interpolated that
    again contains such literals, to any depth. *)
From Coq Require Import Strings.String NArith ZArith Bool Arith List.
From Verif Require Import Base Token Spec SpecLit SpecLexeme.
Import ListNotations.
Open Scope N_scope.
Open Scope list_scope.

Inductive element :=
| E_word (l : lexeme)
| E_literal (op : str) (a b : N) (bt et : ttype) (ps : parts)   (** opened by [op], closed by [b] *)
with parts :=
| P_end (ps : list piece)                                        (** plain text up to the end *)
| P_code (ps : list piece) (code : items) (more : parts)         (** plain text, then #{code} *)
with items :=
| I_end (tail : str)                                             (** blanks *)
| I_item (blank : str) (e : element) (more : items).

Scheme element_mut := Induction for element Sort Prop
  with parts_mut := Induction for parts Sort Prop
  with items_mut := Induction for items Sort Prop.
Combined Scheme tree_ind from element_mut, parts_mut, items_mut.

(** ** How they are written *)
Fixpoint spelled (e : element) : str :=
  match e with
  | E_word l => spelling l
  | E_literal op _ b _ _ ps => op ++ inner ps ++ [b]
  end
with inner (ps : parts) : str :=
  match ps with
  | P_end ps => body_text ps
  | P_code ps code more => body_text ps ++ ["#"; "{"]%ch ++ text code ++ "}"%ch :: inner more
  end
with text (c : items) : str :=
  match c with
  | I_end tail => tail
  | I_item b e more => b ++ spelled e ++ text more
  end.
Fixpoint tail_of (c : items) : str := match c with I_end tail => tail | I_item _ _ more => tail_of more end.

(** ** Which tokens they stand for *)
(** Of the text [src]; the element starts at the offset [i].  The token that starts
    interpolated code stands at its "#{", or behind it if there is text before. *)
Definition token_at (src : str) (i : nat) (t : ttype) (l : option str) (ws : bool) : token :=
  Tok t l None 0 [] (line_of src i) (col_of src i) ws.
Definition text_token (src : str) (i : nat) (bytes : str) : list token :=
  match bytes with [] => [] | _ => [token_at src i T_String (Some bytes) false] end.
Fixpoint element_tokens (src : str) (i : nat) (ws : bool) (e : element) : list token :=
  match e with
  | E_word l => match token_of l (line_of src i) (col_of src i) ws with Some t => [t] | None => [] end
  | E_literal op a b bt et ps => token_at src i bt (Some [a]) ws :: parts_tokens src (i + length op) et ps
  end
with parts_tokens (src : str) (i : nat) (et : ttype) (ps : parts) : list token :=
  match ps with
  | P_end ps => text_token src i (body_bytes ps) ++ [token_at src (i + length (body_text ps) + 1) et None false]
  | P_code ps code more =>
      let j := (i + length (body_text ps) + 2)%nat in
      let k := (j + length (text code))%nat in
      text_token src i (body_bytes ps) ++
      token_at src (match body_bytes ps with [] => i | _ => j end) T_EvaluateToStringBegin None false ::
      items_tokens src j code ++
      token_at src k T_EvaluateToStringEnd None false :: parts_tokens src (k + 1) et more
  end
with items_tokens (src : str) (i : nat) (c : items) : list token :=
  match c with
  | I_end _ => []
  | I_item b e more =>
      let j := (i + length b)%nat in
      element_tokens src j (blank_before b) e ++ items_tokens src (j + length (spelled e)) more
  end.
Definition text_tokens_of (c : items) : list token :=
  drop_before (drop_after T_Invalid (items_tokens (text c) 0 c)) ++ [end_token (text c) (tail_of c)].

(** ** Where they may stand *)
(** How many braces are open in the interpolated code; nothing outside of it. *)
Definition depth := option nat.
Definition braces (m : depth) (e : element) : option depth :=
  match m, e with
  | Some d, E_word (L_punct _ T_LCurlyBrace) => Some (Some (S d))
  | Some (S d), E_word (L_punct _ T_RCurlyBrace) => Some (Some d)
  | Some O, E_word (L_punct _ T_RCurlyBrace) => None
  | _, _ => Some m
  end.
Definition level (m : depth) : Prop := m = None \/ m = Some O.

(** In interpolated code the last token is not remembered. *)
Definition after (p : place) (m : depth) (e : element) : place :=
  let q := match e with
           | E_word l => behind p l
           | E_literal _ _ _ _ et _ => Place et false (naming p && setter p)
           end in
  match m with None => q | Some _ => Place T_Invalid (naming q) (setter q) end.

(** [r] is the text behind. *)
Fixpoint element_fine (p : place) (m : depth) (ws : bool) (e : element) (r : str) : Prop :=
  match e with
  | E_word l => sound l /\ fits p ws l r
  | E_literal op a b bt et ps =>
      opening op a b bt et /\ naming p = false /\ (bt = T_InterpolatedSymbolBegin -> apart p ws) /\ level m /\
      parts_fine a b ps (b :: r)
  end
with parts_fine (a b : N) (ps : parts) (r : str) : Prop :=
  match ps with
  | P_end ps => body_ok a b ps
  | P_code ps code more =>
      body_before a b ps "#"%ch /\ items_fine start (Some O) code ("}"%ch :: inner more ++ r) /\ parts_fine a b more r
  end
with items_fine (p : place) (m : depth) (c : items) (r : str) : Prop :=
  match c with
  | I_end tail => blanks tail /\ level m
  | I_item b e more =>
      blanks b /\ element_fine p m (blank_before b) e (text more ++ r) /\
      match braces m e with Some m' => items_fine (after p m e) m' more r | None => False end
  end.

(** A text without interpolated strings. *)
Fixpoint plainly (l : list (str * lexeme)) (tail : str) : items :=
  match l with [] => I_end tail | (b, x) :: l => I_item b (E_word x) (plainly l tail) end.

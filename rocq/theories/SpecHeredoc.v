(** * SpecHeredoc: what a heredoc says, independently of the model *)
From Coq Require Import Strings.String NArith ZArith Bool List.
From Verif Require Import Base Token Spec SpecLit.
Import ListNotations.
Open Scope N_scope.

(** A text line by line. *)
Definition one_line (l : str) : Prop := ~ In ch_nl l.
Definition unlines (ls : list str) : str := concat (map (fun l => l ++ [ch_nl]) ls).

(** <<NAME, <<-NAME, <<~NAME; the name bare or in one of three kinds of quotes. *)
Inductive heredoc_kind := Plain | Dash | Squiggly.
Inductive heredoc_quote := Bare | Quoted (q : N).
Definition mark (k : heredoc_kind) : str :=
  match k with Plain => [] | Dash => s2l "-" | Squiggly => s2l "~" end.
Definition named (q : heredoc_quote) (name : str) : str :=
  match q with Bare => name | Quoted d => d :: name ++ [d] end.

(** Names: an identifier, or any one-line text between quotes. *)
Definition name_ok (q : heredoc_quote) (name : str) : Prop :=
  match q with
  | Bare => exists c w, name = c :: w /\ ident_start c /\ Forall ident_char w
  | Quoted d => (d = "'"%ch \/ d = """"%ch \/ d = "`"%ch) /\
      Forall (fun c => c <> d /\ c <> ch_nl /\ c <> ch_cr /\ c <> 0) name
  end.

(** The line that closes a heredoc: the name, which for <<- and <<~ may be indented
    (by spaces). *)
Definition closing (k : heredoc_kind) (name l : str) : Prop :=
  match k with
  | Plain => l = name
  | _ => exists pad, Forall (fun c => c = " "%ch) pad /\ l = pad ++ name
  end.
(** Lines after which the scanner stops: for <<- and <<~ these are all the lines
    that end in the name after white space. *)
Definition white (c : N) : Prop := 9 <= c <= 13 \/ c = 32.
Definition stops (k : heredoc_kind) (name l : str) : Prop :=
  l = name \/ match k with Plain => False | _ => exists p c, white c /\ l = p ++ c :: name end.

(** ** Indentation *)

Definition blank (l : str) : Prop := Forall white l.
Definition indented (n : nat) (l : str) : Prop :=
  exists p c r, l = p ++ c :: r /\ length p = n /\ Forall white p /\ ~ white c.
(** [n] is the smallest indentation of the lines that are not blank. *)
Definition smallest_indent (n : nat) (ls : list str) : Prop :=
  (exists l, In l ls /\ indented n l) /\ forall l m, In l ls -> indented m l -> (n <= m)%nat.
(** Dedented text. *)
Definition dedented (n : nat) (ls : list str) : str := unlines (map (skipn n) ls).
(** The text a heredoc with the body [ls] stands for. *)
Definition heredoc_value (k : heredoc_kind) (ls : list str) (v : str) : Prop :=
  match k with
  | Squiggly => exists n, smallest_indent n ls /\ v = dedented n ls
  | _ => v = unlines ls
  end.

(** A source: a heredoc with the name in single quotes, its body, the closing line [t]
    and what follows the closing line. *)
Definition raw_heredoc (k : heredoc_kind) (name : str) (ls : list str) (t z : str) : str :=
  s2l "<<" ++ mark k ++ named (Quoted "'"%ch) name ++ ch_nl :: unlines ls ++ t ++ z.

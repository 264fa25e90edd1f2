(** * SpecProg: programs with assignments, methods, classes, loops and blocks

    A specification, not a model of code: what such programs look like as sequences of
    tokens, which local variables are in sight where, and which trees they stand for. *)
From Coq Require Import Strings.String NArith ZArith Bool List.
From Verif Require Import Base Token Node SpecExpr.
Import ListNotations.
Open Scope N_scope.
Open Scope list_scope.

(** Parameters are names, each after its opening bracket or comma. *)
Definition params := list (token * token).

Inductive stmt :=
| S_value (e : expr)                                    (** e *)
| S_assign (name eq : token) (e : expr)                 (** name = e *)
| S_def (kw name : token) (ps : params) (close : list token) (sep : token) (body : block) (fin : token)
                                                        (** def name(a, b); body end *)
| S_scope (kw name sep : token) (body : block) (fin : token)
                                                        (** class Name; body end (or module) *)
| S_loop (kw : token) (cond : expr) (sep : token) (body : block) (fin : token)
                                                        (** while e; body end (or until) *)
| S_iter (name open : token) (ps : params) (close : list token) (sep : token) (body : block) (fin : token)
                                                        (** name do |a, b|; body end (or with braces) *)
with block :=
| B_nil
| B_cons (s : stmt) (sep : token) (b : block).

Definition params_text (ps : params) : list token := flat_map (fun p => [fst p; snd p]) ps.

(** The tokens a statement is written with. *)
Fixpoint stmt_text (s : stmt) : list token :=
  match s with
  | S_value e => text e
  | S_assign n q e => n :: q :: text e
  | S_def k n ps c sep b f => k :: n :: params_text ps ++ c ++ sep :: block_text b ++ [f]
  | S_scope k n sep b f => k :: n :: sep :: block_text b ++ [f]
  | S_loop k e sep b f => k :: text e ++ sep :: block_text b ++ [f]
  | S_iter n o ps c sep b f => n :: o :: params_text ps ++ c ++ sep :: block_text b ++ [f]
  end
with block_text (b : block) : list token :=
  match b with
  | B_nil => []
  | B_cons s sep b => stmt_text s ++ sep :: block_text b
  end.

Definition name_of (t : token) : str := match lit t with Some s => s | None => [] end.
Definition named (t : token) : Prop := exists s, lit t = Some s /\ ~ In 0 s.
Definition is_separator (t : ttype) : bool := match t with T_Newline | T_Semicolon => true | _ => false end.

(** Parameters between brackets of the types [o] and [c]. *)
Fixpoint params_fit (d : ttype) (ps : params) : Prop :=
  match ps with
  | [] => True
  | (o, n) :: ps' => ty o = d /\ ty n = T_BareName /\ named n /\ params_fit T_Comma ps'
  end.
Definition params_ok (o c : ttype) (ps : params) (close : list token) : Prop :=
  params_fit o ps /\ match ps with [] => close = [] | _ => exists t, close = [t] /\ ty t = c end.

Definition expr_ok (e : expr) : Prop :=
  well_formed e /\ ruby_grouped e = true /\ unexceptional e = true.
Definition is_and_or (t : ttype) : bool := match t with T_AndKeyword | T_OrKeyword => true | _ => false end.

(** ** Scopes *)
(** [s] is a statement where the local variables [l] are in sight. *)
Definition bound (l : list str) (t : token) : bool := existsb (str_eqb (name_of t)) l.
Definition params_names (ps : params) : list str := rev (map (fun p => name_of (snd p)) ps).

(** The local variables in sight behind a statement, if [l] are in front of it. *)
Fixpoint stmt_locals (l : list str) (s : stmt) : list str :=
  match s with
  | S_assign n _ _ => match ty n with T_BareName => name_of n :: l | _ => l end
  | S_loop _ _ _ b _ => block_locals l b
  | _ => l
  end
with block_locals (l : list str) (b : block) : list str :=
  match b with
  | B_nil => l
  | B_cons s _ b => block_locals (stmt_locals l s) b
  end.

(** The tokens have the right types.  A block with braces is only given to a name that
    is no local variable. *)
Fixpoint stmt_ok (l : list str) (s : stmt) : Prop :=
  match s with
  | S_value e => expr_ok e
  | S_assign n q e =>
      is_name (ty n) = true /\ named n /\ ty q = T_Equal /\ expr_ok e /\ on_left is_and_or e = false
  | S_def k n ps c sep b f =>
      ty k = T_DefKeyword /\ ty n = T_BareName /\ named n /\ params_ok T_LParen T_RParen ps c /\
      is_separator (ty sep) = true /\ block_ok (params_names ps) b /\ ty f = T_EndKeyword
  | S_scope k n sep b f =>
      (ty k = T_ClassKeyword \/ ty k = T_ModuleKeyword) /\ ty n = T_Constant /\ named n /\
      is_separator (ty sep) = true /\ block_ok [] b /\ ty f = T_EndKeyword
  | S_loop k e sep b f =>
      (ty k = T_WhileKeyword \/ ty k = T_UntilKeyword) /\ expr_ok e /\
      is_separator (ty sep) = true /\ block_ok l b /\ ty f = T_EndKeyword
  | S_iter n o ps c sep b f =>
      ty n = T_BareName /\ named n /\
      (ty o = T_DoKeyword /\ ty f = T_EndKeyword \/
       ty o = T_LCurlyBrace /\ ty f = T_RCurlyBrace /\ bound l n = false) /\
      params_ok T_Pipe T_Pipe ps c /\
      is_separator (ty sep) = true /\ block_ok (params_names ps ++ l) b
  end
with block_ok (l : list str) (b : block) : Prop :=
  match b with
  | B_nil => True
  | B_cons s sep b => stmt_ok l s /\ is_separator (ty sep) = true /\ block_ok (stmt_locals l s) b
  end.

(** ** What a program stands for *)
Inductive stree :=
| ST_value (v : tree)
| ST_assign (target : node) (v : tree)
| ST_def (name : str) (ps : list str) (body : list stree)
| ST_class (name : node) (body : list stree)
| ST_module (name : node) (body : list stree)
| ST_while (cond : tree) (body : list stree)
| ST_until (cond : tree) (body : list stree)
| ST_iter (call : node) (has_params : bool) (ps : list str) (body : list stree)
| ST_other.

Fixpoint stmt_meaning (l : list str) (s : stmt) : stree :=
  match s with
  | S_value e => ST_value (meaning l e)
  | S_assign n _ e =>
      ST_assign (leaf l n) (meaning (match ty n with T_BareName => name_of n :: l | _ => l end) e)
  | S_def _ n ps _ _ b _ =>
      ST_def (name_of n) (map (fun p => name_of (snd p)) ps) (block_meaning (params_names ps) b)
  | S_scope k n _ b _ =>
      match ty k with
      | T_ClassKeyword => ST_class (leaf [] n) (block_meaning [] b)
      | _ => ST_module (leaf [] n) (block_meaning [] b)
      end
  | S_loop k e _ b _ =>
      match ty k with
      | T_WhileKeyword => ST_while (meaning l e) (block_meaning l b)
      | _ => ST_until (meaning l e) (block_meaning l b)
      end
  | S_iter n _ ps _ _ b _ =>
      ST_iter (leaf l n) (match ps with [] => false | _ => true end) (map (fun p => name_of (snd p)) ps)
        (block_meaning (params_names ps ++ l) b)
  end
with block_meaning (l : list str) (b : block) : list stree :=
  match b with
  | B_nil => []
  | B_cons s _ b => stmt_meaning l s :: block_meaning (stmt_locals l s) b
  end.

(** The trees the parser's nodes stand for. *)
Definition param_name (n : node) : str :=
  match n with N_Arg _ (Some name) false false false None => name | _ => [] end.
Fixpoint node_stree (n : node) : stree :=
  match n with
  | N_Assignment _ t v => ST_assign t (node_tree v)
  | N_Def _ None name args (_, l) => ST_def name (map param_name args) (map node_stree l)
  | N_Class _ name (N_Nil _) (_, l) => ST_class name (map node_stree l)
  | N_Module _ name (_, l) => ST_module name (map node_stree l)
  | N_While _ c (_, l) true => ST_while (node_tree c) (map node_stree l)
  | N_Until _ c (_, l) true => ST_until (node_tree c) (map node_stree l)
  | N_Iter _ call has args (_, l) => ST_iter call has (map param_name args) (map node_stree l)
  | N_Block _ _ => ST_other
  | _ => ST_value (node_tree n)
  end.
(** The statements of a program's node. *)
Definition statements (n : node) : list node := match n with N_Block _ l => l | _ => [n] end.

(** ** Chains *)
Definition is_and2 (t : ttype) : bool := match t with T_AmpersandAmpersand => true | _ => false end.
Definition is_or2 (t : ttype) : bool := match t with T_PipePipe => true | _ => false end.
(** A chain of [&&] over leaves and parenthesised expressions. *)
Definition product (e : expr) : Prop :=
  exists f more, e = chain f more /\ expr_ok f /\ closed f /\
    Forall (fun p => is_and2 (ty (fst p)) = true /\ expr_ok (snd p) /\ closed (snd p)) more.

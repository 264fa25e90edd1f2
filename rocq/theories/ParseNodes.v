(** * ParseNodes: well-formed syntax trees

    What holds of every tree the parser builds: tokens and shapes of the parts
    that the parser and the transform functions read without a check.  No code is
    modelled here. *)
From Coq Require Import Strings.String NArith ZArith Bool List Lia.
From Verif Require Import Base Token Node ParserBase ParserModel ParseHoare.
Import ListNotations.
Open Scope N_scope.
Open Scope list_scope.

Definition olist {A} (o : option A) : list A := match o with Some a => [a] | None => [] end.
Definition obody (o : option (token * list node)) : list node :=
  match o with Some b => snd b | None => [] end.

(** The nodes directly under a node. *)
Definition children (n : node) : list node :=
  match n with
  | N_Alias _ a b | N_Assignment _ a b | N_LogicalAnd _ a b | N_LogicalOr _ a b
  | N_OpAssign _ _ a b | N_OpAssignAnd _ a b | N_OpAssignOr _ a b | N_Range _ a b _
  | N_InfixOp _ a _ b => [a; b]
  | N_Arg _ _ _ _ _ o | N_Break _ o | N_EvaluateToString _ o | N_KeywordArg _ _ o
  | N_KeywordSplat _ o | N_Next _ o | N_Splat _ o => olist o
  | N_Array _ l | N_ArrayPattern _ l | N_Block _ l | N_Hash _ _ l | N_HashPattern _ l
  | N_InterpolatedRegexp _ l _ | N_InterpolatedShell _ l | N_InterpolatedString _ l
  | N_InterpolatedSymbol _ l | N_InterpolatedSymbolKey _ l | N_MultipleAssignment _ l _
  | N_MultipleAssignmentArg _ l | N_StabbyProc _ _ l | N_Super _ l _ | N_Undef _ l | N_Yield _ l => l
  | N_Begin _ b r e f => snd b ++ r ++ obody e ++ obody f
  | N_BeginRescue _ o l b => olist o ++ l ++ snd b
  | N_BlockPass _ a | N_Colon2 _ a _ | N_Complex _ a | N_Defined _ a | N_Not _ a | N_NotMatch _ a
  | N_Pin _ a | N_Rational _ a | N_Return _ a | N_SplatValue _ a | N_ToArray _ a | N_UnaryOp _ _ a => [a]
  | N_Call _ a _ l | N_SafeCall _ a _ l => a :: l
  | N_Case _ a l e => a :: l ++ obody e
  | N_CaseIn _ a b | N_CaseWhen _ a b | N_Module _ a b | N_Sclass _ a b | N_Until _ a b _
  | N_While _ a b _ => a :: snd b
  | N_Class _ a c b => a :: c :: snd b
  | N_Def _ o _ l b => olist o ++ l ++ snd b
  | N_For _ a c b => a :: c :: snd b
  | N_If _ a b c => [a; b; c]
  | N_Iter _ a _ l b => a :: l ++ snd b
  | N_Match _ a o _ => a :: olist o
  | N_OpAssignAccessor _ _ a _ v l _ => a :: v :: l
  | N_BackRef _ _ | N_BeginBlock _ | N_Bignum _ _ | N_Colon3 _ _ | N_Constant _ | N_Encoding _
  | N_EndBlock _ | N_False _ | N_Fixnum _ _ | N_Float _ _ _ | N_ForwardArgs _ | N_Identifier _ _
  | N_KeywordRestPattern _ _ | N_Nil _ | N_NilSexp _ | N_NthRef _ _ | N_Redo _ | N_Regexp _ _ _
  | N_Retry _ | N_Self _ | N_ShadowArg _ _ | N_Shell _ _ | N_String _ _ | N_Symbol _ _
  | N_SymbolKey _ _ | N_True _ | N_Valias _ _ _ => []
  end.

Definition not_constant (n : node) : bool := match n with N_Constant _ => false | _ => true end.
Definition identifier_type (t : ttype) : bool :=
  match t with
  | T_BareName | T_ClassVariable | T_Constant | T_GlobalVariable | T_InstanceVariable => true
  | _ => false
  end.
Definition string_part (n : node) : bool :=
  match n with N_String _ _ | N_EvaluateToString _ _ => true | _ => false end.
Definition is_arg (n : node) : bool :=
  match n with
  | N_Arg _ _ _ _ _ _ | N_ForwardArgs _ | N_KeywordArg _ _ _ | N_MultipleAssignmentArg _ _
  | N_ShadowArg _ _ | N_Nil _ => true
  | _ => false
  end.
Definition splat_symbol (n : node) : bool :=
  match n with
  | N_Splat _ None | N_Splat _ (Some (N_Symbol _ _)) => true
  | N_Splat _ _ => false
  | _ => true
  end.
Definition target (n : node) : bool :=
  match n with
  | N_MultipleAssignment _ _ _ | N_Call _ _ _ _ | N_Colon2 _ _ _ | N_Colon3 _ _ | N_Identifier _ _
  | N_SafeCall _ _ _ _ => true
  | _ => false
  end.
Definition op_target (n : node) : bool :=
  match n with N_Colon2 _ _ _ | N_Colon3 _ _ | N_Identifier _ _ => true | _ => false end.
Definition number (n : node) : bool := is_numeric n.
Definition number_or_rational (n : node) : bool :=
  match n with N_Rational _ _ => true | _ => is_numeric n end.

(** The conditions of particular classes. *)
Definition special (n : node) : Prop :=
  match n with
  | N_Identifier t _ => has_lit t /\ identifier_type (ty t) = true
  | N_Constant t => has_lit t
  | N_InterpolatedString _ l => l <> [] /\ Forall (fun c => string_part c = true) l
  | N_Def _ _ _ l _ | N_Iter _ _ _ l _ | N_StabbyProc _ _ l => Forall (fun c => is_arg c = true) l
  | N_ArrayPattern _ l => Forall (fun c => splat_symbol c = true) l
  | N_Assignment _ id _ | N_BeginRescue _ (Some id) _ _ | N_OpAssignAnd _ id _
  | N_OpAssignOr _ id _ => target id = true
  | N_OpAssign _ _ id _ => op_target id = true
  | N_Complex _ v => number_or_rational v = true
  | N_Rational _ v => number v = true
  | N_Begin _ b _ _ _ => wf_tok (fst b)
  | _ => True
  end.

(** Classes under which a ConstantNode may occur: method receivers and patterns. *)
Definition allows_constants (n : node) : bool :=
  match n with
  | N_Def _ _ _ _ _ | N_CaseIn _ _ _ | N_ArrayPattern _ _ | N_HashPattern _ _ | N_Range _ _ _ _
  | N_LogicalOr _ _ _ | N_Assignment _ _ _ => true
  | _ => false
  end.

Inductive nwf (n : node) : Prop :=
| nwf_intro :
    wf_tok (ntoken n) -> special n ->
    (allows_constants n = true \/ Forall (fun c => not_constant c = true) (children n)) ->
    Forall nwf (children n) -> nwf n.

(** An expression: anything but a ConstantNode, which only patterns and method
    receivers use. *)
Definition expr_node (n : node) : Prop := nwf n /\ not_constant n = true.
Definition pat_node (n : node) : Prop := nwf n /\ splat_symbol n = true.
Definition arg_node (n : node) : Prop := expr_node n /\ is_arg n = true.
Definition good_body (b : token * list node) : Prop := wf_tok (fst b) /\ Forall expr_node (snd b).
Definition good_obody (b : option (token * list node)) : Prop :=
  match b with Some b => good_body b | None => True end.
Definition good_onode (b : option node) : Prop :=
  match b with Some b => expr_node b | None => True end.

Lemma nwf_expr : forall n,
  wf_tok (ntoken n) -> special n -> Forall expr_node (children n) -> nwf n.
Proof.
  intros n H1 H2 H3. apply nwf_intro; auto.
  - right. eapply Forall_impl; [|exact H3]. intros a H. apply H.
  - eapply Forall_impl; [|exact H3]. intros a H. apply H.
Qed.

Lemma expr_intro : forall n,
  wf_tok (ntoken n) -> special n -> not_constant n = true -> Forall expr_node (children n) -> expr_node n.
Proof. intros n H1 H2 H3 H4. split; auto. apply nwf_expr; auto. Qed.

Lemma nwf_any : forall n,
  wf_tok (ntoken n) -> special n -> allows_constants n = true -> Forall nwf (children n) -> nwf n.
Proof. intros n H1 H2 H3 H4. apply nwf_intro; auto. Qed.

Lemma nwf_tok : forall n, nwf n -> wf_tok (ntoken n).
Proof. intros n []. auto. Qed.
Lemma nwf_special : forall n, nwf n -> special n.
Proof. intros n []. auto. Qed.
Lemma nwf_children : forall n, nwf n -> Forall nwf (children n).
Proof. intros n []. auto. Qed.
Lemma expr_children : forall n, nwf n -> allows_constants n = false -> Forall expr_node (children n).
Proof.
  intros n [H1 H2 [H3|H3] H4] E; [congruence|].
  induction (children n) as [|c l IH]; constructor.
  - inversion_clear H3; inversion_clear H4. split; auto.
  - inversion_clear H3; inversion_clear H4. auto.
Qed.

Lemma expr_nwf : forall n, expr_node n -> nwf n.
Proof. intros n H. apply H. Qed.
Lemma expr_nwf_list : forall l, Forall expr_node l -> Forall nwf l.
Proof. intros l H. eapply Forall_impl; [|exact H]. apply expr_nwf. Qed.
Lemma expr_tok : forall n, expr_node n -> wf_tok (ntoken n).
Proof. intros n H. apply nwf_tok, H. Qed.
Lemma arg_expr_list : forall l, Forall arg_node l -> Forall expr_node l.
Proof. intros l H. eapply Forall_impl; [|exact H]. intros a [Ha _]. exact Ha. Qed.
Lemma arg_is_arg_list : forall l, Forall arg_node l -> Forall (fun c => is_arg c = true) l.
Proof. intros l H. eapply Forall_impl; [|exact H]. intros a [_ Ha]. exact Ha. Qed.
Lemma Forall_snoc : forall A (P : A -> Prop) l a, Forall P l -> P a -> Forall P (l ++ [a]).
Proof. intros A P l a H1 H2. apply Forall_app. split; [exact H1|constructor; [exact H2|constructor]]. Qed.

Lemma block_or_only_ok : forall b, good_body b -> expr_node (block_or_only b).
Proof.
  intros [t l] [H1 H2]. unfold block_or_only. cbn [fst snd] in *.
  destruct l as [|a [|b l]].
  - apply expr_intro; cbn; auto.
  - inversion_clear H2. auto.
  - apply expr_intro; cbn; auto.
Qed.

Lemma body_tok : forall b, good_body b -> wf_tok (fst b).
Proof. intros b H. apply H. Qed.
Lemma body_list : forall b, good_body b -> Forall expr_node (snd b).
Proof. intros b H. apply H. Qed.
Lemma obody_list : forall b, good_obody b -> Forall expr_node (obody b).
Proof. intros [b|] H; [apply H|constructor]. Qed.
Lemma olist_list : forall o, good_onode o -> Forall expr_node (olist o).
Proof. intros [b|] H; [constructor; [exact H|constructor]|constructor]. Qed.

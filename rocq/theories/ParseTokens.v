(** * ParseTokens: the parser neither loses nor invents tokens

    Two facts about every parsing function, by going through its structure: the
    tokens before and after the current position stay the same up to newlines, and
    an abort inside a literal needs a token that begins such a literal.  No code is
    modelled here. *)
From Coq Require Import Strings.String NArith ZArith Bool List Lia.
From Verif Require Import Base Token Node ParserBase ParserModel.
Import ListNotations.
Open Scope N_scope.
Open Scope list_scope.
Open Scope monad_scope.

(** The tokens of the vector without newlines. *)
Definition solid (l : list token) : list token := filter (fun t => negb (is_newline (ty t))) l.
Definition ghost (s : pstate) : list token := solid (rev (p_prev s) ++ p_rest s).

Definition starts_interpolation (t : ttype) : bool :=
  match t with
  | T_InterpolatedRegexpBegin | T_InterpolatedShellBegin | T_InterpolatedStringBegin
  | T_InterpolatedSymbolBegin => true
  | _ => false
  end.
Definition starts_symbol_array (t : ttype) : bool :=
  match t with T_PercentLowerI | T_PercentUpperI => true | _ => false end.

Definition has (p : ttype -> bool) (g : list token) : Prop := exists t, In t g /\ p (ty t) = true.

(** What must be among the tokens for an abort. *)
Definition cause (c : pcrash) (g : list token) : Prop :=
  (c = PUnreachable "parser.cpp:1543" -> has starts_interpolation g) /\
  (c = PUnreachable "parser.cpp:1555" -> has starts_interpolation g) /\
  (c = PUnreachable "parser.cpp:2186" -> has starts_symbol_array g).

Definition Str {A} (g : list token) (m : M A) : Prop :=
  forall s, ghost s = g ->
    match m s with
    | POk _ s' => ghost s' = g
    | PCrash c => cause c g
    | _ => True
    end.

Lemma Str_ret A g (a : A) : Str g (ret a).
Proof. intros s H. exact H. Qed.
Lemma Str_throw A g e : Str g (@throw A e).
Proof. intros s H. exact I. Qed.
Lemma Str_nofuel A g : Str g (@nofuel A).
Proof. intros s H. exact I. Qed.
Lemma Str_crash A g c : cause c g -> Str g (@crash A c).
Proof. intros Hc s H. exact Hc. Qed.
Lemma Str_bind A B g (m : M A) (k : A -> M B) :
  Str g m -> (forall a, Str g (k a)) -> Str g (bind m k).
Proof.
  intros Hm Hk s H. unfold bind. specialize (Hm s H). destruct (m s) as [a s'| | |]; auto. apply Hk, Hm.
Qed.
Lemma Str_mloop A B g n (body : A -> M (A + B)) :
  (forall a, Str g (body a)) -> forall a, Str g (mloop n body a).
Proof.
  intros H. induction n as [|n IH]; intros a; [apply Str_nofuel|]. cbn [mloop].
  apply Str_bind; [apply H|]. intros [a'|b]; [apply IH|apply Str_ret].
Qed.
(** A primitive that leaves the tokens alone. *)
Lemma Str_still A g (m : M A) :
  (forall s, match m s with
             | POk _ s' => p_prev s' = p_prev s /\ p_rest s' = p_rest s
             | PCrash c => forall g, cause c g
             | _ => True end) -> Str g m.
Proof.
  intros H s E. specialize (H s). destruct (m s); auto. destruct H as [H1 H2]. unfold ghost. rewrite H1, H2. exact E.
Qed.

Definition seen (g : list token) (t : ttype) : Prop :=
  t = T_Invalid \/ is_newline t = true \/ exists u, In u g /\ ty u = t.
Lemma current_seen s : seen (ghost s) (ty (current s)).
Proof.
  unfold seen, current, ghost, solid. destruct (p_rest s) as [|t l]; [left; reflexivity|]. right. cbn [hd].
  destruct (is_newline (ty t)) eqn:E; [left; reflexivity|]. right. exists t. split; [|reflexivity].
  apply filter_In. rewrite E. split; [|reflexivity]. apply in_or_app. right. left. reflexivity.
Qed.
Lemma Str_cty A g (k : ttype -> M A) : (forall t, seen g t -> Str g (k t)) -> Str g (bind cty k).
Proof. intros H s E. unfold bind, cty. apply H; [|exact E]. rewrite <- E. apply current_seen. Qed.
Lemma Str_cur A g (k : token -> M A) : (forall t, seen g (ty t) -> Str g (k t)) -> Str g (bind cur k).
Proof. intros H s E. unfold bind, cur. apply H; [|exact E]. rewrite <- E. apply current_seen. Qed.

Lemma cause_other c g :
  (c <> PUnreachable "parser.cpp:1543" /\ c <> PUnreachable "parser.cpp:1555" /\ c <> PUnreachable "parser.cpp:2186") ->
  cause c g.
Proof. intros (H1 & H2 & H3). repeat split; intros; contradiction. Qed.
Ltac other := apply cause_other; (split; [|split]; discriminate).
Ltac still := apply Str_still; intros ?; cbn; auto.

Create HintDb str discriminated.
Lemma cur_str g : Str g cur. Proof. still. Qed.
Lemma cty_str g : Str g cty. Proof. still. Qed.
Lemma peek_str g : Str g peek. Proof. still. Qed.
Lemma prev_str g : Str g prev. Proof. still. Qed.
Lemma cur_is_str g t : Str g (cur_is t). Proof. still. Qed.
Lemma push_prec_str g p : Str g (push_prec p). Proof. still. Qed.
Lemma pop_prec_str g : Str g pop_prec.
Proof. apply Str_still. intros s. unfold pop_prec. destruct (p_precs s); [intros; other|cbn; auto]. Qed.
Lemma precs_str g : Str g precs. Proof. still. Qed.
Lemma set_depth_str g d : Str g (set_depth d). Proof. still. Qed.
Lemma depth_stack_str g : Str g depth_stack. Proof. still. Qed.
Lemma set_locals_str g l : Str g (set_locals l). Proof. still. Qed.
Lemma get_locals_str g : Str g get_locals. Proof. still. Qed.
Lemma get_file_str g : Str g get_file. Proof. still. Qed.
Lemma advance_str g : Str g advance.
Proof.
  intros s H. unfold advance. destruct (p_rest s) as [|t l] eqn:E; [other|]. rewrite <- H. unfold ghost. cbn [p_prev p_rest].
  rewrite E. cbn [rev]. rewrite <- app_assoc. reflexivity.
Qed.
Lemma rewind_str g : Str g rewind.
Proof.
  intros s H. unfold rewind. destruct (p_prev s) as [|t l] eqn:E; [other|]. rewrite <- H. unfold ghost. cbn [p_prev p_rest].
  rewrite E. cbn [rev]. rewrite <- app_assoc. reflexivity.
Qed.
Lemma insert_newline_str g t : is_newline (ty t) = true -> Str g (insert_token t).
Proof.
  intros Ht s H. unfold insert_token. rewrite <- H. unfold ghost, solid. cbn [p_prev p_rest].
  rewrite !filter_app. cbn [filter]. rewrite Ht. reflexivity.
Qed.
Lemma skip_eol_toks l : forall b, let '(b', l') := skip_eol b l in rev b' ++ l' = rev b ++ l.
Proof.
  induction l as [|t l IH]; intros b; cbn [skip_eol]; [reflexivity|].
  destruct (is_end_of_line (ty t)); [|reflexivity]. specialize (IH (t :: b)). destruct (skip_eol (t :: b) l).
  rewrite IH. cbn [rev]. rewrite <- app_assoc. reflexivity.
Qed.
Lemma skip_newlines_str g : Str g skip_newlines.
Proof.
  intros s H. unfold skip_newlines. pose proof (skip_eol_toks (p_rest s) (p_prev s)) as K.
  destruct (skip_eol (p_prev s) (p_rest s)) as [b l]. rewrite <- H. unfold ghost. cbn [p_prev p_rest]. rewrite K. reflexivity.
Qed.
#[export] Hint Resolve cur_str cty_str peek_str prev_str cur_is_str push_prec_str pop_prec_str precs_str set_depth_str
  depth_stack_str set_locals_str get_locals_str get_file_str advance_str rewind_str skip_newlines_str : str.

Lemma seen_interp g t : seen g t -> starts_interpolation t = true -> has starts_interpolation g.
Proof.
  intros [->|[H|(u & H1 & H2)]] E; [discriminate|destruct t; discriminate|]. exists u. rewrite H2. auto.
Qed.
Lemma seen_symbols g t : seen g t -> starts_symbol_array t = true -> has starts_symbol_array g.
Proof.
  intros [->|[H|(u & H1 & H2)]] E; [discriminate|destruct t; discriminate|]. exists u. rewrite H2. auto.
Qed.
Ltac begun :=
  match goal with
  | H : seen ?g ?t |- has starts_interpolation ?g =>
      apply (seen_interp g t H); first [reflexivity | match goal with E : t = _ |- _ => rewrite E; reflexivity end]
  | H : seen ?g ?t |- has starts_symbol_array ?g =>
      apply (seen_symbols g t H); first [reflexivity | match goal with E : t = _ |- _ => rewrite E; reflexivity end]
  end.
#[export] Hint Extern 1 (has _ _) => begun : str.

Ltac str0 items :=
  lazymatch goal with
  | |- Str _ (ret _) => apply Str_ret
  | |- Str _ (throw _) => apply Str_throw
  | |- Str _ nofuel => apply Str_nofuel
  | |- Str _ (crash _) => apply Str_crash; first [other | repeat split; intros; solve [assumption | discriminate]]
  | |- Str _ (bind cty _) => apply Str_cty; intros ? ?
  | |- Str _ (bind cur _) => apply Str_cur; intros ? ?
  | |- Str _ (bind _ _) => apply Str_bind
  | |- Str _ (comma_items _ _ _) => items tt
  | |- Str _ (with_locals _ _) => unfold with_locals
  | |- Str _ (mloop _ _ _) => apply Str_mloop
  | |- Str _ (insert_token _) => apply insert_newline_str; reflexivity
  | |- Str _ (match ty ?t with _ => _ end) => destruct (ty t) eqn:?
  | |- Str _ (match ?x with _ => _ end) => destruct x
  | |- Str _ (let _ := _ in _) => cbv zeta
  | |- forall _, _ => intro
  | |- Str _ _ => solve [auto 3 with str]
  end.
Ltac str1 := str0 ltac:(fun _ => fail).
(** A function that is called at the beginning of a string only. *)
Definition is_string_start (t : ttype) : bool :=
  match t with T_String | T_InterpolatedStringBegin => true | _ => false end.
Definition Next {A} (g : list token) (m : M A) : Prop :=
  forall s, ghost s = g -> is_string_start (ty (current s)) = true ->
    match m s with POk _ s' => ghost s' = g | PCrash c => cause c g | _ => True end.

Ltac str f := intros; unfold f; repeat str1.

Lemma push_depth_str g n : Str g (push_depth n). Proof. str push_depth. Qed.
#[export] Hint Resolve push_depth_str : str.
Lemma pop_depth_str g : Str g (pop_depth). Proof. str pop_depth. Qed.
#[export] Hint Resolve pop_depth_str : str.
Lemma incr_depth_str g : Str g (incr_depth). Proof. str incr_depth. Qed.
#[export] Hint Resolve incr_depth_str : str.
Lemma decr_depth_str g : Str g (decr_depth). Proof. str decr_depth. Qed.
#[export] Hint Resolve decr_depth_str : str.
Lemma add_local_str g x : Str g (add_local x). Proof. str add_local. Qed.
#[export] Hint Resolve add_local_str : str.
Lemma is_local_str g x : Str g (is_local x). Proof. str is_local. Qed.
#[export] Hint Resolve is_local_str : str.
Lemma literal_string_str g t : Str g (literal_string t). Proof. str literal_string. Qed.
#[export] Hint Resolve literal_string_str : str.
Lemma type_name_str g t : Str g (type_name t). Proof. str type_name. Qed.
#[export] Hint Resolve type_name_str : str.
Lemma throw_unexpected_str g A t e : Str g (@throw_unexpected A t e). Proof. str @throw_unexpected. Qed.
#[export] Hint Resolve throw_unexpected_str : str.
Lemma throw_error_str g A t e : Str g (@throw_error A t e). Proof. str @throw_error. Qed.
#[export] Hint Resolve throw_error_str : str.
Lemma unexpected_str g A e : Str g (@unexpected A e). Proof. str @unexpected. Qed.
#[export] Hint Resolve unexpected_str : str.
Lemma throw_unterminated_thing_str g A t e : Str g (@throw_unterminated_thing A t e). Proof. str @throw_unterminated_thing. Qed.
#[export] Hint Resolve throw_unterminated_thing_str : str.
Lemma validate_current_token_str g : Str g (validate_current_token). Proof. str validate_current_token. Qed.
#[export] Hint Resolve validate_current_token_str : str.
Lemma next_expression_str g : Str g (next_expression). Proof. str next_expression. Qed.
#[export] Hint Resolve next_expression_str : str.
Lemma expect_str g t e : Str g (expect t e). Proof. str expect. Qed.
#[export] Hint Resolve expect_str : str.
Lemma higher_precedence_str g t l p ia : Str g (higher_precedence t l p ia). Proof. str higher_precedence. Qed.
#[export] Hint Resolve higher_precedence_str : str.
Lemma with_locals_str A g l (m : M A) : Str g m -> Str g (with_locals l m).
Proof. intros H. unfold with_locals. repeat first [exact H | str1]. Qed.
#[export] Hint Resolve with_locals_str : str.
(** ** The parsing functions *)
Section Functions.
Variable expr : N -> iter_allow -> M node.
Variable fuel : nat.
Variable g : list token.
Hypothesis expr_str : forall p ia, Str g (expr p ia).
Hint Resolve expr_str : str.

Lemma reinsert_collapsed_newline_str : Str g (reinsert_collapsed_newline ).
Proof. str reinsert_collapsed_newline. Qed.
Hint Resolve reinsert_collapsed_newline_str : str.
Lemma parse_valias_arg_str : forall allow_number expected, Str g (parse_valias_arg allow_number expected).
Proof. str parse_valias_arg. Qed.
Hint Resolve parse_valias_arg_str : str.
Lemma parse_method_name_str : Str g (parse_method_name ).
Proof. str parse_method_name. Qed.
Hint Resolve parse_method_name_str : str.
Lemma parse_back_ref_str : Str g (parse_back_ref ).
Proof. str parse_back_ref. Qed.
Hint Resolve parse_back_ref_str : str.
Lemma parse_bool_str : Str g (parse_bool ).
Proof. str parse_bool. Qed.
Hint Resolve parse_bool_str : str.
Lemma parse_constant_str : Str g (parse_constant ).
Proof. str parse_constant. Qed.
Hint Resolve parse_constant_str : str.
Lemma parse_encoding_str : Str g (parse_encoding ).
Proof. str parse_encoding. Qed.
Hint Resolve parse_encoding_str : str.
Lemma parse_file_constant_str : Str g (parse_file_constant ).
Proof. str parse_file_constant. Qed.
Hint Resolve parse_file_constant_str : str.
Lemma parse_line_constant_str : Str g (parse_line_constant ).
Proof. str parse_line_constant. Qed.
Hint Resolve parse_line_constant_str : str.
Lemma parse_forward_args_str : Str g (parse_forward_args ).
Proof. str parse_forward_args. Qed.
Hint Resolve parse_forward_args_str : str.
Lemma parse_identifier_str : Str g (parse_identifier ).
Proof. str parse_identifier. Qed.
Hint Resolve parse_identifier_str : str.
Lemma regexp_end_options_str : Str g (regexp_end_options ).
Proof. str regexp_end_options. Qed.
Hint Resolve regexp_end_options_str : str.
Lemma convert_string_to_symbol_key_str : forall n, Str g (convert_string_to_symbol_key n).
Proof. str convert_string_to_symbol_key. Qed.
Hint Resolve convert_string_to_symbol_key_str : str.
Lemma parse_lit_str : Str g (parse_lit ).
Proof. str parse_lit. Qed.
Hint Resolve parse_lit_str : str.
Lemma parse_nil_str : Str g (parse_nil ).
Proof. str parse_nil. Qed.
Hint Resolve parse_nil_str : str.
Lemma parse_nth_ref_str : Str g (parse_nth_ref ).
Proof. str parse_nth_ref. Qed.
Hint Resolve parse_nth_ref_str : str.
Lemma parse_redo_str : Str g (parse_redo ).
Proof. str parse_redo. Qed.
Hint Resolve parse_redo_str : str.
Lemma parse_retry_str : Str g (parse_retry ).
Proof. str parse_retry. Qed.
Hint Resolve parse_retry_str : str.
Lemma parse_self_str : Str g (parse_self ).
Proof. str parse_self. Qed.
Hint Resolve parse_self_str : str.
Lemma parse_shadow_variable_single_arg_str : Str g (parse_shadow_variable_single_arg ).
Proof. str parse_shadow_variable_single_arg. Qed.
Hint Resolve parse_shadow_variable_single_arg_str : str.
Lemma append_string_node_str : forall n1 n2, Str g (append_string_node n1 n2).
Proof. str append_string_node. Qed.
Hint Resolve append_string_node_str : str.
Lemma append_string_nodes_str : forall n1 n2, Str g (append_string_nodes n1 n2).
Proof. str append_string_nodes. Qed.
Hint Resolve append_string_nodes_str : str.
Lemma parse_super_str : Str g (parse_super ).
Proof. str parse_super. Qed.
Hint Resolve parse_super_str : str.
Lemma parse_symbol_str : Str g (parse_symbol ).
Proof. str parse_symbol. Qed.
Hint Resolve parse_symbol_str : str.
Lemma parse_symbol_key_str : Str g (parse_symbol_key ).
Proof. str parse_symbol_key. Qed.
Hint Resolve parse_symbol_key_str : str.
Lemma parse_top_level_constant_str : Str g (parse_top_level_constant ).
Proof. str parse_top_level_constant. Qed.
Hint Resolve parse_top_level_constant_str : str.
Lemma parse_yield_str : Str g (parse_yield ).
Proof. str parse_yield. Qed.
Hint Resolve parse_yield_str : str.
Lemma identifier_add_to_locals_str : forall t, Str g (identifier_add_to_locals t).
Proof. str identifier_add_to_locals. Qed.
Hint Resolve identifier_add_to_locals_str : str.
Lemma masgn_add_locals_str : forall l, Str g (masgn_add_locals l).
Proof.
  assert (One : forall k, Str g ((fix one (n : node) : M unit :=
          match n with
          | N_Identifier t _ => identifier_add_to_locals t
          | N_Call _ _ _ _ | N_Colon2 _ _ _ | N_Colon3 _ _ => ret tt
          | N_Splat _ (Some (N_Identifier t _)) => identifier_add_to_locals t
          | N_Splat _ _ => ret tt
          | N_MultipleAssignment _ sub _ =>
              (fix all (sub : list node) : M unit :=
                 match sub with
                 | [] => ret tt
                 | m :: sub' => one m ;;; all sub'
                 end) sub
          | _ => crash (PUnreachable "multiple_assignment_node.cpp:32")
          end) k)).
  { fix One 1. intros k. destruct k; try solve [str1 | apply Str_crash; other | auto with str].
    - induction nodes as [|m sub IH]; [apply Str_ret|]. apply Str_bind; [apply One|intros; exact IH].
    - match goal with o : option node |- _ => destruct o as [x|] end; [|apply Str_ret].
      destruct x; try apply Str_ret. auto with str. }
  induction l as [|k l IH]; cbn [masgn_add_locals]; [apply Str_ret|]. apply Str_bind; [apply One|]. intros; apply IH.
Qed.
Hint Resolve masgn_add_locals_str : str.
Lemma add_assignment_locals_str : forall lhs, Str g (add_assignment_locals lhs).
Proof. str add_assignment_locals. Qed.
Hint Resolve add_assignment_locals_str : str.
Lemma to_node_with_args_str : forall n, Str g (to_node_with_args n).
Proof. str to_node_with_args. Qed.
Hint Resolve to_node_with_args_str : str.
Lemma parse_proc_call_expression_str : forall lhs, Str g (parse_proc_call_expression lhs).
Proof. str parse_proc_call_expression. Qed.
Hint Resolve parse_proc_call_expression_str : str.
Lemma parse_safe_send_expression_str : forall lhs, Str g (parse_safe_send_expression lhs).
Proof. str parse_safe_send_expression. Qed.
Hint Resolve parse_safe_send_expression_str : str.
Lemma parse_send_expression_str : forall lhs, Str g (parse_send_expression lhs).
Proof. str parse_send_expression. Qed.
Hint Resolve parse_send_expression_str : str.
Lemma pexpr_str : forall precedence, Str g (pexpr expr precedence).
Proof. str pexpr. Qed.
Hint Resolve pexpr_str : str.
Lemma comma_items_str : forall A (item : M A) acc, Str g item -> Str g (@comma_items fuel A item acc).
Proof. str @comma_items. Qed.
Hint Resolve comma_items_str : str.
Ltac str1 ::= str0 ltac:(fun _ => apply comma_items_str).
Lemma parse_comma_separated_expressions_str : forall acc, Str g (parse_comma_separated_expressions expr fuel acc).
Proof. str parse_comma_separated_expressions. Qed.
Hint Resolve parse_comma_separated_expressions_str : str.
Lemma body_with_str : forall rescue precedence is_end, match rescue with Some f => forall t l, Str g (f t l) | None => True end -> Str g (body_with expr fuel rescue precedence is_end).
Proof.
  destruct rescue as [f|]; intros H; unfold body_with; repeat str1.
Qed.
Hint Resolve body_with_str : str.
Lemma parse_body_until_str : forall is_end, Str g (parse_body_until expr fuel is_end).
Proof. intros. apply body_with_str; cbn; auto with str. Qed.
Hint Resolve parse_body_until_str : str.
Lemma parse_body_to_str : forall end_type, Str g (parse_body_to expr fuel end_type).
Proof. intros. apply body_with_str; cbn; auto with str. Qed.
Hint Resolve parse_body_to_str : str.
Lemma parse_rescue_clause_str : Str g (parse_rescue_clause expr fuel ).
Proof. str parse_rescue_clause. Qed.
Hint Resolve parse_rescue_clause_str : str.
Lemma parse_rest_of_begin_str : forall t body, Str g (parse_rest_of_begin expr fuel t body).
Proof. str parse_rest_of_begin. Qed.
Hint Resolve parse_rest_of_begin_str : str.
Lemma rescue_in_body_str : forall t nodes, Str g (rescue_in_body expr fuel t nodes).
Proof. str rescue_in_body. Qed.
Hint Resolve rescue_in_body_str : str.
Lemma parse_body_rescue_str : forall is_end, Str g (parse_body_rescue expr fuel is_end).
Proof. intros. apply body_with_str; cbn; auto with str. Qed.
Hint Resolve parse_body_rescue_str : str.
Lemma parse_body_rescue_to_str : forall end_type, Str g (parse_body_rescue_to expr fuel end_type).
Proof. intros. apply body_with_str; cbn; auto with str. Qed.
Hint Resolve parse_body_rescue_to_str : str.
Lemma parse_begin_str : Str g (parse_begin expr fuel ).
Proof. str parse_begin. Qed.
Hint Resolve parse_begin_str : str.
Lemma parse_keyword_splat_str : Str g (parse_keyword_splat expr ).
Proof. str parse_keyword_splat. Qed.
Hint Resolve parse_keyword_splat_str : str.
Lemma hash_value_str : forall precedence key acc, Str g (hash_value expr precedence key acc).
Proof. str hash_value. Qed.
Hint Resolve hash_value_str : str.
Lemma parse_hash_inner_str : forall precedence closing bare first_key, Str g (parse_hash_inner expr fuel precedence closing bare first_key).
Proof. str parse_hash_inner. Qed.
Hint Resolve parse_hash_inner_str : str.
Lemma parse_hash_str : Str g (parse_hash expr fuel ).
Proof. str parse_hash. Qed.
Hint Resolve parse_hash_str : str.
Lemma array_add_node_str : forall acc, Str g (array_add_node expr fuel acc).
Proof. str array_add_node. Qed.
Hint Resolve array_add_node_str : str.
Lemma parse_array_str : Str g (parse_array expr fuel ).
Proof. str parse_array. Qed.
Hint Resolve parse_array_str : str.
Lemma parse_beginless_range_str : Str g (parse_beginless_range expr ).
Proof. str parse_beginless_range. Qed.
Hint Resolve parse_beginless_range_str : str.
Lemma parse_block_pass_str : Str g (parse_block_pass expr ).
Proof. str parse_block_pass. Qed.
Hint Resolve parse_block_pass_str : str.
Lemma parse_jump_arg_str : forall t, Str g (parse_jump_arg expr fuel t).
Proof. str parse_jump_arg. Qed.
Hint Resolve parse_jump_arg_str : str.
Lemma parse_break_str : Str g (parse_break expr fuel ).
Proof. str parse_break. Qed.
Hint Resolve parse_break_str : str.
Lemma parse_next_str : Str g (parse_next expr fuel ).
Proof. str parse_next. Qed.
Hint Resolve parse_next_str : str.
Lemma parse_interpolated_body_str : forall nt end_type, has starts_interpolation g -> Str g (parse_interpolated_body expr fuel nt end_type).
Proof. str parse_interpolated_body. Qed.
Hint Resolve parse_interpolated_body_str : str.
Lemma parse_interpolated_regexp_str : has starts_interpolation g -> Str g (parse_interpolated_regexp expr fuel ).
Proof. str parse_interpolated_regexp. Qed.
Hint Resolve parse_interpolated_regexp_str : str.
Lemma parse_interpolated_shell_str : has starts_interpolation g -> Str g (parse_interpolated_shell expr fuel ).
Proof. str parse_interpolated_shell. Qed.
Hint Resolve parse_interpolated_shell_str : str.
Lemma parse_interpolated_symbol_str : has starts_interpolation g -> Str g (parse_interpolated_symbol expr fuel ).
Proof. str parse_interpolated_symbol. Qed.
Hint Resolve parse_interpolated_symbol_str : str.
Lemma concat_adjacent_strings_str : forall next string, Next g next -> Str g (concat_adjacent_strings fuel next string).
Proof.
  intros next string H. unfold concat_adjacent_strings. apply Str_mloop. intros acc s E.
  unfold bind at 1, cty at 1.
  assert (K : is_string_start (ty (current s)) = true -> match (n <- next ;; s0 <- append_string_nodes (fst acc) n ;;
      ret (inl (s0, true) : (node * bool) + (node * bool))) s with POk _ s' => ghost s' = g | PCrash c => cause c g | _ => True end).
  { intros Ht. specialize (H s E Ht). unfold bind at 1. destruct (next s) as [a s'| | |]; auto.
    apply (Str_bind _ _ g (append_string_nodes (fst acc) a)); auto with str. }
  destruct (ty (current s)); try exact E; apply K; reflexivity.
Qed.
Hint Resolve concat_adjacent_strings_str : str.
Lemma finish_string_str : forall next string, Next g next -> Str g (finish_string fuel next string).
Proof. str finish_string. Qed.
Hint Resolve finish_string_str : str.
Lemma parse_string_with_str : forall next, Next g next -> Str g (parse_string_with fuel next).
Proof. str parse_string_with. Qed.
Hint Resolve parse_string_with_str : str.
Lemma parse_interpolated_string_with_str : forall next, has starts_interpolation g -> Next g next -> Str g (parse_interpolated_string_with expr fuel next).
Proof. str parse_interpolated_string_with. Qed.
Hint Resolve parse_interpolated_string_with_str : str.
Lemma next_string_str : forall n, Next g (next_string expr fuel n).
Proof.
  induction n as [|n IH]; intros s E Ht; cbn [next_string]; [exact I|]. unfold bind, cty.
  pose proof (current_seen s) as Hs. rewrite E in Hs.
  destruct (ty (current s)) eqn:Hc; try discriminate.
  - apply (parse_interpolated_string_with_str _ (seen_interp _ _ Hs eq_refl) IH s E).
  - apply (parse_string_with_str _ IH s E).
Qed.
Hint Resolve next_string_str : str.
Lemma parse_string_str : Str g (parse_string expr fuel ).
Proof. str parse_string. Qed.
Hint Resolve parse_string_str : str.
Lemma parse_interpolated_string_str : has starts_interpolation g -> Str g (parse_interpolated_string expr fuel ).
Proof. str parse_interpolated_string. Qed.
Hint Resolve parse_interpolated_string_str : str.
Lemma parse_alias_arg_str : forall expected, Str g (parse_alias_arg expr fuel expected).
Proof. str parse_alias_arg. Qed.
Hint Resolve parse_alias_arg_str : str.
Lemma parse_alias_str : Str g (parse_alias expr fuel ).
Proof. str parse_alias. Qed.
Hint Resolve parse_alias_str : str.
Lemma parse_undef_str : Str g (parse_undef expr fuel ).
Proof. str parse_undef. Qed.
Hint Resolve parse_undef_str : str.
Lemma parse_unary_operator_str : Str g (parse_unary_operator expr ).
Proof. str parse_unary_operator. Qed.
Hint Resolve parse_unary_operator_str : str.
Lemma parse_word_array_str : Str g (parse_word_array expr fuel ).
Proof. str parse_word_array. Qed.
Hint Resolve parse_word_array_str : str.
Lemma parse_word_symbol_array_str : has starts_symbol_array g -> Str g (parse_word_symbol_array expr fuel ).
Proof. str parse_word_symbol_array. Qed.
Hint Resolve parse_word_symbol_array_str : str.
Lemma parse_call_hash_args_str : forall bare_call closing first, Str g (parse_call_hash_args expr fuel bare_call closing first).
Proof. str parse_call_hash_args. Qed.
Hint Resolve parse_call_hash_args_str : str.
Lemma starts_bare_hash_str : forall arg, Str g (starts_bare_hash arg).
Proof. str starts_bare_hash. Qed.
Hint Resolve starts_bare_hash_str : str.
Lemma parse_call_args_str : forall call bare closing, Str g (parse_call_args expr fuel call bare closing).
Proof. str parse_call_args. Qed.
Hint Resolve parse_call_args_str : str.
Lemma parse_call_expression_with_parens_str : forall lhs, Str g (parse_call_expression_with_parens expr fuel lhs).
Proof. str parse_call_expression_with_parens. Qed.
Hint Resolve parse_call_expression_with_parens_str : str.
Lemma parse_call_expression_without_parens_str : forall lhs, Str g (parse_call_expression_without_parens expr fuel lhs).
Proof. str parse_call_expression_without_parens. Qed.
Hint Resolve parse_call_expression_without_parens_str : str.
Lemma parse_constant_resolution_expression_str : forall lhs, Str g (parse_constant_resolution_expression expr fuel lhs).
Proof. str parse_constant_resolution_expression. Qed.
Hint Resolve parse_constant_resolution_expression_str : str.
Lemma parse_infix_expression_str : forall lhs, Str g (parse_infix_expression expr lhs).
Proof. str parse_infix_expression. Qed.
Hint Resolve parse_infix_expression_str : str.
Lemma parse_logical_expression_str : forall lhs, Str g (parse_logical_expression expr lhs).
Proof. str parse_logical_expression. Qed.
Hint Resolve parse_logical_expression_str : str.
Lemma parse_match_expression_str : forall lhs, Str g (parse_match_expression expr lhs).
Proof. str parse_match_expression. Qed.
Hint Resolve parse_match_expression_str : str.
Lemma parse_not_match_expression_str : forall lhs, Str g (parse_not_match_expression expr lhs).
Proof. str parse_not_match_expression. Qed.
Hint Resolve parse_not_match_expression_str : str.
Lemma parse_op_attr_assign_expression_str : forall lhs receiver message args safe, Str g (parse_op_attr_assign_expression expr lhs receiver message args safe).
Proof. str parse_op_attr_assign_expression. Qed.
Hint Resolve parse_op_attr_assign_expression_str : str.
Lemma op_assign_rest_str : forall lhs, Str g (op_assign_rest expr lhs).
Proof. str op_assign_rest. Qed.
Hint Resolve op_assign_rest_str : str.
Lemma parse_op_assign_expression_str : forall lhs, Str g (parse_op_assign_expression expr lhs).
Proof. str parse_op_assign_expression. Qed.
Hint Resolve parse_op_assign_expression_str : str.
Lemma parse_range_expression_str : forall lhs, Str g (parse_range_expression expr lhs).
Proof. str parse_range_expression. Qed.
Hint Resolve parse_range_expression_str : str.
Lemma parse_ref_expression_str : forall lhs, Str g (parse_ref_expression expr fuel lhs).
Proof. str parse_ref_expression. Qed.
Hint Resolve parse_ref_expression_str : str.
Lemma parse_rescue_expression_str : forall lhs, Str g (parse_rescue_expression expr lhs).
Proof. str parse_rescue_expression. Qed.
Hint Resolve parse_rescue_expression_str : str.
Lemma parse_ternary_expression_str : forall lhs, Str g (parse_ternary_expression expr lhs).
Proof. str parse_ternary_expression. Qed.
Hint Resolve parse_ternary_expression_str : str.
Lemma parse_triple_dot_str : Str g (parse_triple_dot expr ).
Proof. str parse_triple_dot. Qed.
Hint Resolve parse_triple_dot_str : str.
Lemma parse_not_str : Str g (parse_not expr ).
Proof. str parse_not. Qed.
Hint Resolve parse_not_str : str.
Lemma parse_splat_str : Str g (parse_splat expr ).
Proof. str parse_splat. Qed.
Hint Resolve parse_splat_str : str.
Lemma parse_return_str : Str g (parse_return expr fuel ).
Proof. str parse_return. Qed.
Hint Resolve parse_return_str : str.
Lemma multiple_assignment_with_str : forall item lhs, Str g item -> Str g (multiple_assignment_with fuel item lhs).
Proof. str multiple_assignment_with. Qed.
Hint Resolve multiple_assignment_with_str : str.
Lemma assignment_suffixes_str : forall n, Str g (assignment_suffixes expr fuel n).
Proof. str assignment_suffixes. Qed.
Hint Resolve assignment_suffixes_str : str.
Lemma assignment_identifier_str : forall n allow_splat, Str g (assignment_identifier expr fuel n allow_splat).
Proof. induction n as [|n IH]; intros ?; cbn [assignment_identifier]; repeat first [apply IH | str1]. Qed.
Hint Resolve assignment_identifier_str : str.
Lemma parse_assignment_identifier_str : forall allow_splat, Str g (parse_assignment_identifier expr fuel allow_splat).
Proof. str parse_assignment_identifier. Qed.
Hint Resolve parse_assignment_identifier_str : str.
Lemma parse_multiple_assignment_expression_str : forall lhs, Str g (parse_multiple_assignment_expression expr fuel lhs).
Proof. str parse_multiple_assignment_expression. Qed.
Hint Resolve parse_multiple_assignment_expression_str : str.
Lemma parse_assignment_expression_value_str : forall to_array allow_multiple, Str g (parse_assignment_expression_value expr fuel to_array allow_multiple).
Proof. str parse_assignment_expression_value. Qed.
Hint Resolve parse_assignment_expression_value_str : str.
Lemma parse_assignment_expression_str : forall allow_multiple lhs, Str g (parse_assignment_expression expr fuel allow_multiple lhs).
Proof. str parse_assignment_expression. Qed.
Hint Resolve parse_assignment_expression_str : str.
Lemma arg_default_value_str : forall n ia, Str g (arg_default_value expr n ia).
Proof. induction n as [|n IH]; intros ?; cbn [arg_default_value]; repeat first [apply IH | str1]. Qed.
Hint Resolve arg_default_value_str : str.
Lemma parse_arg_default_value_str : forall ia, Str g (parse_arg_default_value expr fuel ia).
Proof. str parse_arg_default_value. Qed.
Hint Resolve parse_arg_default_value_str : str.
Lemma def_single_arg_str : forall n ctx ia args, Str g (def_single_arg expr fuel n ctx ia args).
Proof. induction n as [|n IH]; intros ? ? ?; cbn [def_single_arg]; repeat first [apply IH | str1]. Qed.
Hint Resolve def_single_arg_str : str.
Lemma parse_def_single_arg_str : forall ctx ia args, Str g (parse_def_single_arg expr fuel ctx ia args).
Proof. str parse_def_single_arg. Qed.
Hint Resolve parse_def_single_arg_str : str.
Lemma parse_def_args_str : forall args, Str g (parse_def_args expr fuel args).
Proof. str parse_def_args. Qed.
Hint Resolve parse_def_args_str : str.
Lemma add_locals_str : forall names, Str g (add_locals names).
Proof. induction names; cbn [add_locals]; repeat str1. Qed.
Hint Resolve add_locals_str : str.
Lemma parse_shadow_variables_in_args_str : forall args, Str g (parse_shadow_variables_in_args fuel args).
Proof. str parse_shadow_variables_in_args. Qed.
Hint Resolve parse_shadow_variables_in_args_str : str.
Lemma parse_proc_args_str : forall args ia, Str g (parse_proc_args expr fuel args ia).
Proof. str parse_proc_args. Qed.
Hint Resolve parse_proc_args_str : str.
Lemma parse_iter_args_str : forall args, Str g (parse_iter_args expr fuel args).
Proof. str parse_iter_args. Qed.
Hint Resolve parse_iter_args_str : str.
Lemma parse_iter_body_str : forall curly_brace, Str g (parse_iter_body expr fuel curly_brace).
Proof. str parse_iter_body. Qed.
Hint Resolve parse_iter_body_str : str.
Lemma parse_iter_head_str : forall lhs, Str g (parse_iter_head expr fuel lhs).
Proof. str parse_iter_head. Qed.
Hint Resolve parse_iter_head_str : str.
Lemma parse_iter_expression_str : forall lhs, Str g (parse_iter_expression expr fuel lhs).
Proof. str parse_iter_expression. Qed.
Hint Resolve parse_iter_expression_str : str.
Lemma parse_begin_block_str : Str g (parse_begin_block expr fuel ).
Proof. str parse_begin_block. Qed.
Hint Resolve parse_begin_block_str : str.
Lemma parse_end_block_str : Str g (parse_end_block expr fuel ).
Proof. str parse_end_block. Qed.
Hint Resolve parse_end_block_str : str.
Lemma parse_stabby_proc_str : Str g (parse_stabby_proc expr fuel ).
Proof. str parse_stabby_proc. Qed.
Hint Resolve parse_stabby_proc_str : str.
Lemma parse_modifier_expression_str : forall lhs, Str g (parse_modifier_expression expr lhs).
Proof. str parse_modifier_expression. Qed.
Hint Resolve parse_modifier_expression_str : str.
Lemma parse_for_str : Str g (parse_for expr fuel ).
Proof. str parse_for. Qed.
Hint Resolve parse_for_str : str.
Lemma parse_group_str : Str g (parse_group expr fuel ).
Proof. str parse_group. Qed.
Hint Resolve parse_group_str : str.
Lemma parse_if_body_str : Str g (parse_if_body expr fuel ).
Proof. str parse_if_body. Qed.
Hint Resolve parse_if_body_str : str.
Lemma then_or_newline_str : Str g (then_or_newline ).
Proof. str then_or_newline. Qed.
Hint Resolve then_or_newline_str : str.
Lemma if_branch_str : forall n parse_match_condition, Str g (if_branch expr fuel n parse_match_condition).
Proof. induction n as [|n IH]; intros ?; cbn [if_branch]; repeat first [apply IH | str1]. Qed.
Hint Resolve if_branch_str : str.
Lemma parse_if_str : Str g (parse_if expr fuel ).
Proof. str parse_if. Qed.
Hint Resolve parse_if_str : str.
Lemma parse_unless_str : Str g (parse_unless expr fuel ).
Proof. str parse_unless. Qed.
Hint Resolve parse_unless_str : str.
Lemma parse_while_str : Str g (parse_while expr fuel ).
Proof. str parse_while. Qed.
Hint Resolve parse_while_str : str.
Lemma parse_class_or_module_name_str : Str g (parse_class_or_module_name expr ).
Proof. str parse_class_or_module_name. Qed.
Hint Resolve parse_class_or_module_name_str : str.
Lemma parse_sclass_str : Str g (parse_sclass expr fuel ).
Proof. str parse_sclass. Qed.
Hint Resolve parse_sclass_str : str.
Lemma parse_class_str : Str g (parse_class expr fuel ).
Proof. str parse_class. Qed.
Hint Resolve parse_class_str : str.
Lemma parse_module_str : Str g (parse_module expr fuel ).
Proof. str parse_module. Qed.
Hint Resolve parse_module_str : str.
Lemma parse_def_name_str : Str g (parse_def_name expr ).
Proof. str parse_def_name. Qed.
Hint Resolve parse_def_name_str : str.
Lemma parse_def_rest_str : forall name, Str g (parse_def_rest expr fuel name).
Proof. str parse_def_rest. Qed.
Hint Resolve parse_def_rest_str : str.
Lemma parse_def_str : Str g (parse_def expr fuel ).
Proof. str parse_def. Qed.
Hint Resolve parse_def_str : str.
Lemma parse_defined_str : Str g (parse_defined expr ).
Proof. str parse_defined. Qed.
Hint Resolve parse_defined_str : str.
Lemma add_local_exact_str : forall name, Str g (add_local_exact name).
Proof. str add_local_exact. Qed.
Hint Resolve add_local_exact_str : str.
Lemma parse_case_in_pattern_hash_symbol_key_str : Str g (parse_case_in_pattern_hash_symbol_key expr fuel ).
Proof. str parse_case_in_pattern_hash_symbol_key. Qed.
Hint Resolve parse_case_in_pattern_hash_symbol_key_str : str.
Lemma hash_pattern_pair_str : forall pattern acc, Str g pattern -> Str g (hash_pattern_pair expr fuel pattern acc).
Proof. str hash_pattern_pair. Qed.
Hint Resolve hash_pattern_pair_str : str.
Lemma case_in_pattern_str : forall n, Str g (case_in_pattern expr fuel n).
Proof. induction n as [|n IH]; intros; cbn [case_in_pattern]; repeat first [apply IH | str1]. Qed.
Hint Resolve case_in_pattern_str : str.
Lemma parse_case_in_pattern_str : Str g (parse_case_in_pattern expr fuel ).
Proof. str parse_case_in_pattern. Qed.
Hint Resolve parse_case_in_pattern_str : str.
Lemma parse_case_in_pattern_alternation_str : Str g (parse_case_in_pattern_alternation expr fuel ).
Proof. str parse_case_in_pattern_alternation. Qed.
Hint Resolve parse_case_in_pattern_alternation_str : str.
Lemma parse_case_in_patterns_str : Str g (parse_case_in_patterns expr fuel ).
Proof. str parse_case_in_patterns. Qed.
Hint Resolve parse_case_in_patterns_str : str.
Lemma parse_case_body_str : forall type, Str g (parse_case_body expr fuel type).
Proof. str parse_case_body. Qed.
Hint Resolve parse_case_body_str : str.
Lemma then_or_next_str : Str g (then_or_next ).
Proof. str then_or_next. Qed.
Hint Resolve then_or_next_str : str.
Lemma parse_case_str : Str g (parse_case expr fuel ).
Proof. str parse_case. Qed.
Hint Resolve parse_case_str : str.
Lemma null_denotation_str t f : seen g t -> null_denotation expr fuel t = Some f -> Str g f.
Proof.
  intros H E. destruct t; cbn [null_denotation] in E; first [discriminate E | injection E as <-; auto 3 with str].
Qed.
Lemma left_denotation_str t pk lhs p f : left_denotation expr fuel t pk lhs p = Some f -> forall n, Str g (f n).
Proof.
  intros E n. unfold left_denotation in E. destruct (ty t);
    repeat match type of E with context [if ?c then _ else _] => destruct c end;
    first [discriminate E | injection E as <-; auto 3 with str].
Qed.
Lemma expression_step_str : forall precedence ia lhs, Str g (expression_step expr fuel precedence ia lhs).
Proof.
  intros. unfold expression_step. apply Str_cur. intros t Ht. str1; [str1|]. apply Str_bind; [auto with str|]. intros b.
  str1; [str1|]. apply Str_bind; [auto with str|]. intros pk.
  destruct (left_denotation expr fuel t pk lhs precedence) as [f|] eqn:E; [|auto with str].
  apply Str_bind; [exact (left_denotation_str _ _ _ _ _ E _)|]. repeat str1.
Qed.
Hint Resolve expression_step_str : str.
Lemma expression_body_str : forall precedence ia, Str g (expression_body expr fuel precedence ia).
Proof.
  intros. unfold expression_body. apply Str_bind; [auto with str|]. intros _. apply Str_bind; [auto with str|]. intros _.
  apply Str_cty. intros t Ht. destruct (null_denotation expr fuel t) as [f|] eqn:E; [|auto with str].
  apply Str_bind; [exact (null_denotation_str _ _ Ht E)|]. repeat str1.
Qed.
Hint Resolve expression_body_str : str.
End Functions.

Lemma parse_expression_str g : forall n p ia, Str g (parse_expression n p ia).
Proof.
  induction n as [|n IH]; intros; cbn [parse_expression]; [apply Str_nofuel|]. apply expression_body_str, IH.
Qed.
#[export] Hint Resolve parse_expression_str : str.
Lemma tree_str g n : Str g (tree n).
Proof. str tree. Qed.

(** ** Whole sources *)
Lemma mloop_last A B (body : A -> M (A + B)) : forall n a s b s',
  mloop n body a s = POk b s' -> exists a' s0, body a' s0 = POk (inr b) s'.
Proof.
  induction n as [|n IH]; intros a s b s' H; [discriminate|]. cbn [mloop] in H. unfold bind in H at 1.
  destruct (body a s) as [[a'|b'] s0| | |] eqn:E; try discriminate.
  - exact (IH _ _ _ _ H).
  - injection H as <- <-. eauto.
Qed.

(** The loop of [tree] stops at the end of the source only. *)
Lemma tree_stops n s r s' : tree n s = POk r s' -> is_eof (ty (current s')) = true.
Proof.
  intros H. unfold tree in H. unfold bind in H at 1. destruct (skip_newlines s) as [? s1| | |]; try discriminate.
  unfold bind in H at 1. destruct (cur s1) as [t s2| | |]; try discriminate.
  unfold bind in H at 1. destruct (validate_current_token s2) as [? s3| | |]; try discriminate.
  unfold bind in H at 1. destruct (skip_newlines s3) as [? s4| | |]; try discriminate.
  unfold bind in H at 1. match type of H with context [mloop ?n ?b ?a ?s] => destruct (mloop n b a s) as [l s5| | |] eqn:E end;
    try discriminate.
  injection H as _ <-. apply mloop_last in E. destruct E as (a' & s0 & E). unfold bind, cty in E.
  destruct (is_eof (ty (current s0))) eqn:Z; [injection E as _ <-; exact Z|].
  destruct (parse_expression n LOWEST IA_CURLY_AND_BLOCK s0) as [e s6| | |]; try discriminate.
  destruct (validate_current_token s6) as [? s7| | |]; try discriminate.
  destruct (next_expression s7) as [? s8| | |]; discriminate.
Qed.

(** * RubyExpr: literals, operators, assignments, modifiers and jumps

    [Spine] for the programs of SpecRuby without lists and bodies.  No code is modelled here. *)
From Coq Require Import Strings.String NArith ZArith Bool List Lia.
From Verif Require Import Base Token Node ParserBase ParserModel Sexp SpecRuby RubyTransform RubyNodes RubyBase RubyRun RubyBody.
Import ListNotations.
Open Scope N_scope.
Open Scope list_scope.

(** ** Facts about nodes *)
Lemma integer_tag tag l : str_eqb (s2l tag) (s2l "lit") = false -> integer (sx tag l) = None.
Proof. intros H. unfold integer, sx. destruct l as [|[] []]; try reflexivity. rewrite H. reflexivity. Qed.
Lemma integer_documented k v : integer (documented k v) = integer v.
Proof. destruct v; reflexivity. Qed.
Lemma named_ok t : named t = true -> lit t = Some (name t) /\ cstr (name t) = name t.
Proof.
  unfold named, name. destruct (lit t) as [s|]; [|discriminate]. intros H. split; [reflexivity|].
  induction s as [|c s IH]; [reflexivity|]. cbn [existsb] in H. apply negb_true_iff, orb_false_iff in H as [H1 H2].
  rewrite N.eqb_sym in H1. cbn [cstr]. rewrite H1, IH; [reflexivity|]. rewrite H2. reflexivity.
Qed.
Lemma plain_not_nil v : plain v = true -> forall t, v <> N_Nil t.
Proof. intros H t ->. discriminate. Qed.
Lemma plain_value v (X : node) (f : token -> list node -> node) : plain v = true ->
  match v with N_Block bt l => f bt l | _ => v end = v.
Proof. destruct v; (reflexivity || discriminate). Qed.
Lemma plain_splat v : plain v = true -> match v with N_Splat _ _ => true | _ => false end = false.
Proof. destruct v; (reflexivity || discriminate). Qed.
Lemma plain_ksplat v : plain v = true -> match v with N_KeywordSplat _ _ => true | _ => false end = false.
Proof. destruct v; (reflexivity || discriminate). Qed.
Lemma plain_multiple v : plain v = true -> match v with N_MultipleAssignment _ _ _ => true | _ => false end = false.
Proof. destruct v; (reflexivity || discriminate). Qed.
Lemma plain_group t v : plain v = true -> group_result t v = v.
Proof. destruct v; (reflexivity || discriminate). Qed.
Lemma plain_condition v : plain v = true -> match_condition v = v.
Proof. destruct v; (reflexivity || discriminate). Qed.
Lemma plain_match t v w : plain v = true -> plain w = true ->
  match v, w with
  | N_Regexp _ _ _, _ => N_Match t v (Some w) true
  | _, N_Regexp _ _ _ => N_Match t w (Some v) false
  | _, _ => N_Call t v (s2l "=~") [w]
  end = N_Call t v (s2l "=~") [w].
Proof.
  intros Hv Hw.
  assert (X : match w with N_Regexp _ _ _ => N_Match t w (Some v) false | _ => N_Call t v (s2l "=~") [w] end = N_Call t v (s2l "=~") [w])
    by (clear Hv; destruct w; (reflexivity || discriminate)).
  destruct v; (exact X || discriminate).
Qed.
Lemma plain_modifier t v : plain v = true ->
  match v with N_Block bt l => ((bt, l), false) | N_Begin _ _ _ _ _ => ((t, [v]), false) | _ => ((t, [v]), true) end = ((t, [v]), negb (n_shape v =? 3)).
Proof. destruct v; try (reflexivity || discriminate). match goal with |- context [N_InterpolatedString _ ?l] => destruct l as [|[] [|]]; reflexivity end. Qed.
Lemma and_kind t l r : is_numeric (make_and t l r) = false /\ fixnum (make_and t l r) = None /\ plain (make_and t l r) = true /\ n_shape (make_and t l r) = 0.
Proof. destruct l; repeat split. Qed.
Lemma or_kind t l r : is_numeric (make_or t l r) = false /\ fixnum (make_or t l r) = None /\ plain (make_or t l r) = true /\ n_shape (make_or t l r) = 0.
Proof. destruct l; repeat split. Qed.

Definition ordinary (e : rb) : bool :=
  match e with
  | R_leaf _ | R_group _ _ _ | R_quoted _ _ _ | R_scope _ _ _ | R_top _ _ | R_call _ _ _ | R_command _ _ _ _ | R_keywords _ _ _ _ _ _ _ | R_keyword _ _ => false
  | _ => true
  end.
Lemma good_ordinary l e v : ordinary e = true -> stands v (meaning l e) -> is_numeric v = number e ->
  fixnum v = integer (meaning l e) -> plain v = true -> n_shape v = shape e -> good l e v.
Proof.
  intros O S N X P Sh. constructor; try assumption; try (destruct e; (exact I || discriminate O)).
  intros br B. destruct e; discriminate B || discriminate O.
Qed.

(** ** Follow tokens *)
Lemma level_mono t b b' : (b' = true -> b = true) -> level t b <= level t b'.
Proof. intros H. destruct b', b; try (exfalso; discriminate (H eq_refl)); destruct t; cbn; lia. Qed.
Lemma okf_type u x : ty u = x -> follows x = true ->
  match x with T_ConstantResolution | T_LBracket => tk_ws u = false | _ => True end -> okf u = true.
Proof. unfold okf. intros -> F. rewrite F. destruct x; try reflexivity; intros ->; reflexivity. Qed.

Section Expressions.
Variable m : nat.
Hypothesis IH : Main m.
Notation E := (parse_expression m).
Notation F := (m + m + 2)%nat.

(** The right operand [e] of [X]. *)
Lemma operand X e p ia u r a ps d0 d l l' f p' :
  fit X p ia u d0 l -> fits l' e = true -> (length (text e) < m)%nat -> p' < lthr (left e) ->
  level (ty u) (number X) <= p' -> (number X = true -> number e = true) -> right X <= right e ->
  (shallow e = true -> shallow X = true) -> (ty u = T_Comma -> assigns e = false) ->
  (returns e = true -> returns X = true) -> block_head X = false ->
  exists v, good l' e v /\
    pexpr E p' (PState a (text e ++ u :: r) ps (d0 :: d) l' f) =
    POk v (PState (rev (text e) ++ a) (u :: r) ps (d0 :: d) (after l' e) f).
Proof.
  intros K Hf Hm Hl Hp Hn Hr Hs Ha Hret Hb. destruct K.
  pose proof (level_mono (ty u) (number e) (number X) Hn) as Lm.
  assert (Hdo : ty u = T_DoKeyword -> d0 <> 0 /\ 3 <= right e).
  { intros H. destruct (f_do H) as [[X1 X2]|H']; [split; [exact X1|clear - X2 Hr; lia]|rewrite Hb in H'; discriminate H']. }
  apply IH; [exact Hm| |clear - Lm Hp; lia|exact Hdo].
  constructor; try assumption.
  - pose proof (rthr_mono _ _ Hr). clear - Lm f_right H. lia.
  - discriminate.
  - intros H. split; [apply f_shallow, Hs, H|reflexivity].
  - intros H. left. apply Hdo. exact H.
  - intros H. specialize (f_comma H). clear - f_comma Hr. lia.
  - intros H. left. apply Ha, H.
  - intros H. apply f_return, Hret, H.
Qed.
(** The left operand [e] of [X], with the token [t] behind it. *)
Lemma left_operand X e t p ia u r a ps d0 d l f :
  Spine m e -> fit X p ia u d0 l -> fits l e = true -> (length (text e) <= m)%nat -> okf t = true ->
  left X <= left e -> level (ty t) (number e) <= rthr (right e) ->
  (shallow e = true -> shallow X = true) -> ty t <> T_DoKeyword -> ty t <> T_Comma -> ty t <> T_HashRocket ->
  (returns e = true -> is_end_of_expression (ty t) = true) ->
  exists v k, good l e v /\ (k <= length (text e))%nat /\
    reach m p ia k (PState a (text e ++ t :: r) (p :: ps) (d0 :: d) l f) v
      (PState (rev (text e) ++ a) (t :: r) (p :: ps) (d0 :: d) (after l e) f).
Proof.
  intros Sp K Hf Hm Ht Hl Hr Hs T1 T2 T3 Hret. destruct K.
  apply (Sp p ia t r a ps d0 d l f Hm). constructor; try assumption; try contradiction.
  - eapply lthr_at; eassumption.
  - intros H. apply f_shallow, Hs, H.
  - intros [H|H]; contradiction.
Qed.

(** *** Leaves *)
Lemma run_identifier t a r ps d l f : named t = true ->
  parse_identifier (PState a (t :: r) ps d l f) = POk (N_Identifier t (bound l (name t))) (PState (t :: a) r ps d l f).
Proof.
  intros H. destruct (named_ok t H) as [L C]. unfold parse_identifier. run1. rewrite L. run1. run1. rewrite C. reflexivity.
Qed.
Lemma stands_leaf_ident t l : is_variable (ty t) = true -> named t = true ->
  stands (N_Identifier t (bound l (name t))) (leaf l t).
Proof.
  intros H N. destruct (named_ok t N) as [L _]. pose proof (stands_ident t (bound l (name t)) H L) as S.
  replace (leaf l t) with (ident (bound l (name t)) t); [exact S|]. unfold ident, leaf.
  destruct (ty t); try discriminate H; reflexivity.
Qed.

Lemma run_string t s a u r ps d l f : lit t = Some s -> okf u = true ->
  parse_string E F (PState a (t :: u :: r) ps d l f) = POk (N_String t s) (PState (t :: a) (u :: r) ps d l f).
Proof.
  intros El Ku. unfold parse_string, parse_string_with. run1. unfold literal_string. rewrite El. run1. run1.
  unfold finish_string. run1.
  assert (X : (match ps with
     | [] => concat_adjacent_strings F (next_string E F F) (N_String t s)
     | p :: _ => if negb (p =? WORD_ARRAY) then concat_adjacent_strings F (next_string E F F) (N_String t s) else ret (N_String t s, false)
     end) (PState (t :: a) (u :: r) ps d l f) = POk (N_String t s, false) (PState (t :: a) (u :: r) ps d l f)).
  { assert (Y : concat_adjacent_strings F (next_string E F F) (N_String t s) (PState (t :: a) (u :: r) ps d l f) = POk (N_String t s, false) (PState (t :: a) (u :: r) ps d l f)).
    { unfold concat_adjacent_strings. rewrite Nat.add_comm. cbn [Nat.add]. apply loop_done. run1.
      apply andb_true_iff in Ku as [Ku _]. destruct (ty u); discriminate Ku || reflexivity. }
    destruct ps as [|p ps]; [exact Y|]. destruct (p =? WORD_ARRAY); [reflexivity|exact Y]. }
  rewrite (bind_ok _ _ _ _ _ X). cbv beta iota. run1. rewrite (okf_not T_InterpolatedStringSymbolKey u eq_refl Ku). reflexivity.
Qed.

Lemma spine_leaf t : Spine m (R_leaf t).
Proof.
  intros p ia u r a ps d0 d l f Hm K. pose proof (f_fits _ _ _ _ _ _ K) as Hf. pose proof (f_tok _ _ _ _ _ _ K) as Ku.
  cbn [fits] in Hf. apply andb_true_iff in Hf as [Hl Hf].
  assert (G : exists v, good l (R_leaf t) v /\
    exists g, null_denotation E F (ty t) = Some g /\
      g (PState a (t :: u :: r) (p :: ps) (d0 :: d) l f) = POk v (PState (t :: a) (u :: r) (p :: ps) (d0 :: d) l f)).
  { destruct (is_variable (ty t)) eqn:Ev.
    - assert (N : named t = true) by (destruct (ty t); discriminate Ev || exact Hf).
      exists (N_Identifier t (bound l (name t))). split.
      + constructor; cbn [meaning number].
        * apply stands_leaf_ident; assumption.
        * destruct (ty t); discriminate Ev || reflexivity.
        * cbn [fixnum]. unfold leaf. destruct (ty t); try discriminate Ev; try reflexivity. destruct (bound l (name t)); reflexivity.
        * reflexivity.
        * unfold shape. cbn [plain_string only_code n_shape rescued]. destruct (ty t); discriminate Ev || reflexivity.
        * exact I.
        * reflexivity.
        * destruct (ty t); discriminate Ev || exact I.
        * exact I.
        * intros br B. cbn [blockable] in B. bools. cbn [is_callable can_accept_a_block has_block_pass].
          rewrite H, H0. repeat split.
      + exists parse_identifier. split; [destruct (ty t); discriminate Ev || reflexivity|]. apply run_identifier. exact N.
    - assert (Gd : forall v, stands v (leaf l t) -> is_numeric v = is_number (ty t) -> fixnum v = integer (leaf l t) -> plain v = true ->
        n_shape v = (if ttype_eqb (ty t) T_String then 1 else 0) ->
        (match ty t with
         | T_Fixnum => v = N_Fixnum t (fix_ t) | T_Float => v = N_Float t false (dbl t) | T_Bignum => v = N_Bignum t (name t)
         | _ => True end) -> good l (R_leaf t) v).
      { intros v A B C D Sh X. constructor; try assumption; try exact I.
        - rewrite Ev. discriminate.
        - intros br Bl. cbn [blockable] in Bl. bools. rewrite H in Ev. discriminate. }
      assert (Lit : forall n, (forall k, match ty u with
            | T_Complex => advance ;;; ret (N_Complex t n)
            | T_Rational => advance ;;; ret (N_Rational t n)
            | T_RationalComplex => advance ;;; ret (N_Complex t (N_Rational t n))
            | _ => k end = k)).
      { intros n k. apply andb_true_iff in Ku as [Ku _]. destruct (ty u); discriminate Ku || reflexivity. }
      destruct (ty t) eqn:Et; try discriminate Ev; try discriminate Hl; try discriminate Hf.
      + destruct (lit t) as [[|c [|? ?]]|] eqn:El; try discriminate Hf.
        exists (N_BackRef t c). assert (N : name t = [c]) by (unfold name; rewrite El; reflexivity). split.
        * apply Gd; unfold leaf; rewrite ?Et, ?N; try reflexivity. apply stands_back_ref.
        * eexists. split; [reflexivity|]. unfold parse_back_ref. run1. run1. unfold literal_string. rewrite El. reflexivity.
      + destruct (lit t) as [s|] eqn:El; [|discriminate Hf].
        exists (N_Bignum t s). assert (N : name t = s) by (unfold name; rewrite El; reflexivity). split.
        * apply Gd; unfold leaf; rewrite ?Et, ?N; try reflexivity. apply stands_bignum.
        * eexists. split; [reflexivity|]. unfold parse_lit. run1. rewrite Et. repeat run1. unfold literal_string. rewrite El.
          repeat run1. rewrite Lit. reflexivity.
      + exists (N_Encoding t). split; [apply Gd; unfold leaf; rewrite ?Et; try reflexivity; apply stands_encoding|].
        eexists. split; [reflexivity|]. reflexivity.
      + exists (N_False t). split; [apply Gd; unfold leaf; rewrite ?Et; try reflexivity; apply stands_false|].
        eexists. split; [reflexivity|]. unfold parse_bool. run1. rewrite Et. reflexivity.
      + exists (N_Fixnum t (fix_ t)). split; [apply Gd; unfold leaf; rewrite ?Et; try reflexivity; apply stands_fixnum|].
        eexists. split; [reflexivity|]. unfold parse_lit. run1. rewrite Et. repeat run1. rewrite Lit. reflexivity.
      + exists (N_Float t false (dbl t)). split; [apply Gd; unfold leaf; rewrite ?Et; try reflexivity; apply stands_float|].
        eexists. split; [reflexivity|]. unfold parse_lit. run1. rewrite Et. repeat run1. rewrite Lit. reflexivity.
      + exists (N_NilSexp t). split; [apply Gd; unfold leaf; rewrite ?Et; try reflexivity; apply stands_nilsexp|].
        eexists. split; [reflexivity|]. reflexivity.
      + exists (N_NthRef t (fix_ t)). split; [apply Gd; unfold leaf; rewrite ?Et; try reflexivity; apply stands_nth_ref|].
        eexists. split; [reflexivity|]. reflexivity.
      + exists (N_Self t). split; [apply Gd; unfold leaf; rewrite ?Et; try reflexivity; apply stands_self|].
        eexists. split; [reflexivity|]. reflexivity.
      + destruct (lit t) as [s|] eqn:El; [|discriminate Hf].
        exists (N_String t s). assert (N : name t = s) by (unfold name; rewrite El; reflexivity). split.
        * apply Gd; unfold leaf; rewrite ?Et, ?N; try reflexivity. apply stands_string.
        * exists (parse_string E F). split; [reflexivity|]. apply run_string; assumption.
      + destruct (lit t) as [s|] eqn:El; [|discriminate Hf].
        exists (N_Symbol t s). assert (N : name t = s) by (unfold name; rewrite El; reflexivity). split.
        * apply Gd; unfold leaf; rewrite ?Et, ?N; try reflexivity. apply stands_symbol.
        * eexists. split; [reflexivity|]. unfold parse_symbol. run1. unfold literal_string. rewrite El. reflexivity.
      + exists (N_True t). split; [apply Gd; unfold leaf; rewrite ?Et; try reflexivity; apply stands_true|].
        eexists. split; [reflexivity|]. unfold parse_bool. run1. rewrite Et. reflexivity. }
  destruct G as (v & G & g & Hg & Rg). exists v, 0%nat. split; [exact G|]. split; [apply Nat.le_0_l|].
  exact (reach_null m p ia a (t :: u :: r) (p :: ps) (d0 :: d) l f g v _ Hg Rg).
Qed.

End Expressions.

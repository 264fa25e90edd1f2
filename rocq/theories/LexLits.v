(** * LexLits: tokens of the lexer carry the literals the parser reads *)
From Coq Require Import Strings.String NArith ZArith Bool Arith List Lia.
From Verif Require Import ParserBase ParseHoare Base Token Spec LexModel TokensProofs.
Import ListNotations.
Open Scope N_scope.

Definition okp {A} (r : res A) (Q : A -> Prop) : Prop := forall a, r = Ok a -> Q a.

Lemma okp_ok A (a : A) (Q : A -> Prop) : Q a -> okp (Ok a) Q.
Proof. intros H b [= <-]. exact H. Qed.
Lemma okp_nofuel A (Q : A -> Prop) : okp NoFuel Q.
Proof. intros a [=]. Qed.
Lemma okp_crash A r (Q : A -> Prop) : okp (Crash r) Q.
Proof. intros a [=]. Qed.
Lemma okp_bind A B (r : res A) (k : A -> res B) Q :
  okp r (fun a => okp (k a) Q) -> okp (Base.bind r k) Q.
Proof. intros H b Hb. destruct r; try discriminate. exact (H a eq_refl b Hb). Qed.
Lemma okp_any A (r : res A) (Q : A -> Prop) : (forall a, Q a) -> okp r Q.
Proof. intros H a _. apply H. Qed.
Lemma okp_mono A (r : res A) (P Q : A -> Prop) : okp r P -> (forall a, P a -> Q a) -> okp r Q.
Proof. intros H K a E. apply K, H, E. Qed.

(** A type that needs no literal. *)
Definition bare (t : ttype) : Prop := forall f, wf_tok (tk f t).

Definition wfl (p : token * lx) : Prop := wf_tok (fst p).

Ltac wf := unfold wfl, wf_tok, has_lit, tk, tkl, tkz, tkd, tkc, tkcl, set_lit, set_ty; cbn; try discriminate; exact I.


(** One step through the structure of a consumer. *)
Ltac ok1 :=
  lazymatch goal with
  | |- okp (Ok _) _ => apply okp_ok
  | |- okp NoFuel _ => apply okp_nofuel
  | |- okp (Crash _) _ => apply okp_crash
  | |- okp (Base.bind _ _) _ => apply okp_bind
  | |- okp (if ?b then _ else _) _ => destruct b
  | |- okp (match ?x with _ => _ end) _ => destruct x
  | |- okp (let _ := _ in _) _ => cbv zeta
  | |- forall _, _ => intros
  end.
Ltac rest := apply okp_any; intros.

Lemma consume_word_token_wf f t : t <> T_BackRef -> okp (consume_word_token f t) wfl.
Proof.
  intros H. unfold consume_word_token. ok1. rest. ok1. ok1.
  unfold wfl, wf_tok, has_lit. cbn. destruct t; congruence || exact I.
Qed.
Lemma consume_word_token_ty f t : okp (consume_word_token f t) (fun p => ty (fst p) = t).
Proof. unfold consume_word_token. ok1. rest. ok1. ok1. reflexivity. Qed.
Lemma consume_symbol_wf f : okp (consume_symbol f) wfl.
Proof.
  assert (S : forall p : str * lx, okp (let (buf, g) := p in Ok (tkl g T_Symbol buf, g)) wfl)
    by (intros [? ?]; ok1; wf).
  unfold consume_symbol.
  repeat first [apply S | apply okp_ok; wf | apply okp_bind; apply okp_any; intro
               | match goal with |- okp (if ?b then _ else _) _ => destruct b end | progress cbv zeta].
Qed.
Lemma consume_name_wf f t : t = T_BareName \/ t = T_Constant -> okp (consume_bare_name_or_constant f t) wfl.
Proof.
  intros H. unfold consume_bare_name_or_constant. ok1. rest. cbv zeta.
  repeat ok1; destruct H; subst; try (destruct (_ && _)); wf.
Qed.
Lemma consume_global_wf f : okp (consume_global_variable f) wfl.
Proof.
  unfold consume_global_variable. cbv zeta. repeat ok1; try wf. apply consume_word_token_wf. discriminate.
Qed.
Lemma fixnum_wf f s b o : wf_tok (chars_to_fixnum_or_bignum_token f s b o).
Proof. unfold chars_to_fixnum_or_bignum_token. destruct (strtoll _ _). destruct (_ || _); wf. Qed.
Lemma consume_float_wf f s : okp (consume_numeric_as_float f s) wfl.
Proof.
  unfold consume_numeric_as_float. ok1. rest. destruct a. cbv zeta. ok1; [|ok1; wf]. ok1; [ok1; wf|].
  ok1. rest. ok1. ok1. wf.
Qed.
Lemma consume_decimal_wf f : okp (consume_decimal f) wfl.
Proof.
  unfold consume_decimal. ok1. rest. ok1. cbv zeta. ok1; [apply consume_float_wf|]. ok1. apply fixnum_wf.
Qed.
Lemma consume_prefixed_wf f p q b : okp (consume_prefixed f p q b) wfl.
Proof.
  unfold consume_prefixed. cbv zeta. ok1; [ok1; wf|]. ok1. rest. ok1. ok1. apply fixnum_wf.
Qed.
Lemma consume_numeric_wf f : okp (consume_numeric f) wfl.
Proof.
  unfold consume_numeric. cbv zeta.
  repeat first [apply consume_prefixed_wf | apply consume_decimal_wf | apply okp_ok; wf
    | match goal with |- okp (if ?b then _ else _) _ => destruct b end].
  ok1. rest. ok1. ok1. apply fixnum_wf.
Qed.
Lemma consume_nth_ref_wf f : okp (consume_nth_ref f) wfl.
Proof. unfold consume_nth_ref. cbv zeta. ok1. rest. ok1. ok1. wf. Qed.

(** Single-quoted text: a literal, of one of three types. *)
Lemma sq_loop_lit fuel : forall f a b d buf, okp (sq_loop fuel f a b d buf)
  (fun p => has_lit (fst p) /\ In (ty (fst p)) [T_String; T_SymbolKey; T_UnterminatedString]).
Proof.
  induction fuel; intros; cbn [sq_loop]; cbv zeta; repeat first [apply IHfuel | ok1];
    (split; [cbv; discriminate|cbn; auto]).
Qed.
Lemma sq_wf f a b : okp (consume_single_quoted_string f a b) wfl.
Proof.
  eapply okp_mono; [apply sq_loop_lit|]. intros p [H1 H2]. unfold wfl, wf_tok.
  destruct H2 as [H2|[H2|[H2|[]]]]; rewrite <- H2; exact H1 || exact I.
Qed.

(** ** The lexer tree *)
Definition kind_lit (k : kind) : Prop :=
  match k with
  | KStr _ et _ => In et [T_InterpolatedStringEnd; T_InterpolatedShellEnd; T_InterpolatedSymbolEnd]
  | _ => True
  end.
Fixpoint tree_lit (l : lexer) : Prop :=
  match l with
  | Lexer _ k n => kind_lit k /\ match n with Some m => tree_lit m | None => True end
  end.
Definition nest_lit (n : option lexer) : Prop := match n with Some m => tree_lit m | None => True end.
Definition wfb (p : bres) : Prop := wf_tok (fst (fst p)) /\ nest_lit (snd p).
Definition wfk (p : kres) : Prop :=
  let '(t, _, k, n) := p in wf_tok t /\ kind_lit k /\ nest_lit n.

Lemma plain_wf r : okp r wfl -> okp (plain r) wfb.
Proof. intros H. unfold plain. apply okp_bind. eapply okp_mono; [exact H|]. intros [t f] Ht. ok1. split; [exact Ht|exact I]. Qed.
Lemma ret_wf f t : wf_tok (tk f t) -> okp (ret f t) wfb.
Proof. intros H. apply okp_ok. split; [exact H|exact I]. Qed.
Lemma dq_wf b e f x y : wf_tok (tkl f b [x]) ->
  In e [T_InterpolatedStringEnd; T_InterpolatedShellEnd; T_InterpolatedSymbolEnd] ->
  okp (consume_double_quoted_string b e f x y) wfb.
Proof. intros H1 H2. apply okp_ok. split; [exact H1|]. cbn. auto. Qed.
Lemma istr_wf f x y : okp (consume_interpolated_string f x y) wfb.
Proof. apply dq_wf; [wf|cbn; auto]. Qed.
Lemma ishell_wf f x y : okp (consume_interpolated_shell f x y) wfb.
Proof. apply dq_wf; [wf|cbn; auto]. Qed.
Lemma regexp_wf f x y : okp (consume_regexp f x y) wfb.
Proof. apply okp_ok. split; [wf|cbn; auto]. Qed.
Lemma qarray_wf t i f x y : In t [T_PercentLowerW; T_PercentLowerI; T_PercentUpperW; T_PercentUpperI] ->
  okp (consume_quoted_array t i f x y) wfb.
Proof. intros H. apply okp_ok. split; [|cbn; auto]. cbn in H. decompose [or] H; subst; wf || contradiction. Qed.
Lemma psym_wf f x y : okp (consume_percent_symbol f x y) wfb.
Proof.
  unfold consume_percent_symbol. ok1. eapply okp_mono; [apply sq_loop_lit|]. intros [t g] [H _]. ok1.
  split; [exact H|exact I].
Qed.
Lemma pstring_wf f c b : (forall f x y, okp (c f x y) wfb) -> okp (consume_percent_string f c b) wfb.
Proof.
  intros H. unfold consume_percent_string. cbv zeta.
  repeat first [apply H | match goal with |- okp (if ?b then _ else _) _ => destruct b end | apply okp_ok; split; [wf|exact I]].
Qed.
Lemma heredoc_wf f : okp (consume_heredoc f) wfb.
Proof.
  unfold consume_heredoc. cbv zeta. ok1. rest. destruct a as [[name|] g]; [|ok1; split; [wf|exact I]].
  ok1. rest. destruct a as [i|]; [|ok1; split; [wf|exact I]].
  ok1. rest. destruct a as [d|[d j]]; [ok1; split; [wf|exact I]|].
  ok1; ok1; (split; [try destruct (_ =? _); try wf|]); try exact I. cbn. destruct (_ =? _); auto.
Qed.

Lemma match_keyword_in f ks t g : match_keyword f ks = Some (t, g) -> In t (map snd ks).
Proof.
  induction ks as [|[s u] ks IH]; [discriminate|]. cbn [match_keyword]. destruct (match_ f s).
  - intros [= -> ->]. left. reflexivity.
  - intros H. right. auto.
Qed.
Lemma keyword_bare t f : In t (map snd keywords) -> wf_tok (tk f t).
Proof. intros H. cbn in H. repeat (destruct H as [<-|H]; [wf|]). contradiction. Qed.
Lemma lex_keyword_in f t g : lex_keyword f = Some (t, g) -> In t (map snd keywords).
Proof.
  unfold lex_keyword. intros H.
  match type of H with (let (_, _) := ?x in _) = _ => assert (K : fst x = None \/ fst x = Some T_SelfKeyword) end.
  { destruct (_ && _); auto. destruct (match_ _ _); auto. destruct (_ || _); auto. }
  match type of H with (let (_, _) := ?x in _) = _ => destruct x as [k h] end. cbn [fst] in K.
  destruct (_ =? _).
  - destruct (match_keyword h keywords) as [[u h']|] eqn:E.
    + injection H as <- <-. eapply match_keyword_in; eauto.
    + destruct K; subst; [discriminate|]. injection H as <- <-. cbn. tauto.
  - destruct K; subst; [discriminate|]. injection H as <- <-. cbn. tauto.
Qed.
Lemma lex_word_wf f : okp (lex_word f) wfb.
Proof.
  unfold lex_word. destruct (lex_keyword f) as [[t g]|] eqn:E.
  - apply lex_keyword_in in E. ok1; ok1; (split; [|exact I]); [wf|]. apply keyword_bare, E.
  - cbv zeta. ok1; [apply plain_wf, consume_name_wf; auto|]. ok1; [apply plain_wf, consume_name_wf; auto|].
    ok1. rest. ok1. ok1. split; [wf|exact I].
Qed.

Lemma consume_escaped_err f buf : okp (consume_escaped_byte f buf)
  (fun p => match fst (fst p) with Some t => t <> T_BackRef | None => True end).
Proof.
  unfold consume_escaped_byte.
  repeat first [match goal with |- okp (Ok _) _ => apply okp_ok; cbn; try discriminate; exact I end | ok1 | rest].
Qed.
Lemma wf_tkl f t s : t <> T_BackRef -> wf_tok (tkl f t s).
Proof. unfold wf_tok, has_lit. cbn. destruct t; congruence || auto; discriminate. Qed.

Lemma wf_tkcl f t s : t <> T_BackRef -> wf_tok (tkcl f t s).
Proof. unfold wf_tok, has_lit. cbn. destruct t; congruence || auto; discriminate. Qed.

Ltac sw :=
  lazymatch goal with
  | |- okp (ret _ _) _ => apply ret_wf; wf
  | |- okp (consume_regexp _ _ _) _ => apply regexp_wf
  | |- okp (consume_interpolated_string _ _ _) _ => apply istr_wf
  | |- okp (consume_interpolated_shell _ _ _) _ => apply ishell_wf
  | |- okp (consume_double_quoted_string _ _ _ _ _) _ => apply dq_wf; [wf|cbn; auto]
  | |- okp (consume_heredoc _) _ => apply heredoc_wf
  | |- okp (lex_word _) _ => apply lex_word_wf
  | |- okp (consume_percent_string _ _ _) _ => apply pstring_wf; intros; sw
  | |- okp (consume_quoted_array _ _ _ _ _) _ => apply qarray_wf; cbn; tauto
  | |- okp (consume_percent_symbol _ _ _) _ => apply psym_wf
  | |- okp (plain (consume_symbol _)) _ => apply plain_wf, consume_symbol_wf
  | |- okp (plain (consume_numeric _)) _ => apply plain_wf, consume_numeric_wf
  | |- okp (plain (consume_nth_ref _)) _ => apply plain_wf, consume_nth_ref_wf
  | |- okp (plain (consume_global_variable _)) _ => apply plain_wf, consume_global_wf
  | |- okp (plain (consume_single_quoted_string _ _ _)) _ => apply plain_wf, sq_wf
  | |- okp (plain (consume_word_token _ _)) _ => apply plain_wf, consume_word_token_wf; discriminate
  | |- okp (Ok _) _ => apply okp_ok; (split; [wf|exact I])
  | |- okp (if ?b then _ else _) _ => destruct b
  | |- okp (Base.bind (consume_escaped_byte _ _) _) _ =>
    apply okp_bind; eapply okp_mono; [apply consume_escaped_err|]; intros [[[|] ?] ?] ?
  | |- okp (Base.bind (consume_word_token _ _) _) _ =>
    apply okp_bind; eapply okp_mono; [apply consume_word_token_ty|]; intros [? ?] ?
  | |- okp (Base.bind _ _) _ => apply okp_bind; apply okp_any; intro
  | |- okp (match ?x with _ => _ end) _ => destruct x
  end.

Lemma lex_switch_wf f : okp (lex_switch f) wfb.
Proof.
  unfold lex_switch. cbv zeta. repeat sw.
  - apply okp_ok. split; [apply wf_tkl; assumption|exact I].
  - apply okp_ok. split; [|exact I]. unfold wf_tok, has_lit. cbn in *. rewrite H. discriminate.
Qed.
Lemma build_base_wf f : okp (build_base f) wfb.
Proof. unfold build_base. cbv zeta. repeat first [apply lex_switch_wf | sw]. Qed.

Lemma wf_end f e : kind_lit (KStr InProgress e true) -> wf_tok (tkc f e).
Proof. cbn. intros [<-|[<-|[<-|[]]]]; exact I. Qed.
Lemma str_finish_wf f e a : kind_lit (KStr InProgress e true) -> okp (str_finish f e a) wfk.
Proof. intros H. apply okp_ok. split; [apply wf_end, H|split; [exact H|exact I]]. Qed.
Lemma str_start_wf f e a : kind_lit (KStr InProgress e true) -> okp (str_start_evaluation f e a) wfk.
Proof. intros H. apply okp_ok. split; [wf|split; [exact H|cbn; auto]]. Qed.
Ltac kw := apply okp_ok; split; [first [wf | apply wf_tkl; assumption | apply wf_tkcl; assumption] | split; [assumption || exact I | exact I || (cbn; auto)]].
Lemma str_loop_wf fuel : forall f e a buf, kind_lit (KStr InProgress e true) -> okp (str_loop fuel f e a buf) wfk.
Proof.
  induction fuel; intros f e a buf H; cbn [str_loop]; cbv zeta; [apply okp_nofuel|].
  repeat first [apply IHfuel; exact H | apply str_finish_wf; exact H | apply str_start_wf; exact H | kw | sw ].
Qed.
Lemma build_str_wf f st e a : kind_lit (KStr st e a) -> okp (build_str f st e a) wfk.
Proof.
  intros H. destruct st; cbn [build_str]; cbv zeta;
    first [apply str_loop_wf; exact H | apply str_finish_wf; exact H | apply str_start_wf; exact H | kw].
Qed.
Lemma regexp_loop_wf fuel : forall f o buf, okp (regexp_loop fuel f o buf) wfk.
Proof.
  induction fuel; intros f o buf; cbn [regexp_loop]; cbv zeta; [apply okp_nofuel|].
  repeat first [apply IHfuel | kw | sw ].
Qed.
Lemma build_regexp_wf f st o : okp (build_regexp f st o) wfk.
Proof.
  destruct st; cbn [build_regexp]; cbv zeta; repeat first [apply regexp_loop_wf | kw | sw].
  apply okp_ok. split; [destruct o; wf|split; exact I].
Qed.
Lemma dsf_wf f it s d buf : okp (dynamic_string_finish f it s d buf) wfk.
Proof. unfold dynamic_string_finish. destruct buf; kw. Qed.
Lemma array_loop_wf fuel : forall f st it s d buf, okp (array_loop fuel f st it s d buf) wfk.
Proof.
  induction fuel; intros f st it s d buf; cbn [array_loop]; cbv zeta; [apply okp_nofuel|].
  repeat first [apply IHfuel | apply dsf_wf | kw | sw ].
Qed.
Lemma build_words_wf f st it s d buf : okp (build_words f st it s d buf) wfk.
Proof. destruct st; cbn [build_words]; cbv zeta; repeat first [apply array_loop_wf | kw | sw]. Qed.
Lemma build_wf f k : kind_lit k -> okp (build f k) wfk.
Proof.
  intros H. destruct k; cbn [build].
  - apply okp_bind. eapply okp_mono; [apply build_base_wf|]. intros [[t g] n] [H1 H2]. apply okp_ok.
    split; [exact H1|split; [exact I|exact H2]].
  - apply build_str_wf, H.
  - apply build_regexp_wf.
  - apply build_words_wf.
Qed.
Definition wft (p : token * lexer) : Prop := wf_tok (fst p) /\ tree_lit (snd p).
Lemma next_own_wf f k : kind_lit k -> okp (next_own f k) wft.
Proof.
  intros H. unfold next_own. apply okp_bind, okp_any. intros [ws g]. cbv zeta.
  apply okp_bind. eapply okp_mono; [apply build_wf, H|]. intros [[[t h] k'] n] (H1 & H2 & H3). apply okp_ok.
  split; [exact H1|]. split; [exact H2|exact H3].
Qed.
Fixpoint next_token_wf l {struct l} : tree_lit l -> okp (next_token l) wft.
Proof.
  destruct l as [f k [n|]]; cbn [tree_lit next_token]; intros [H1 H2].
  - apply okp_bind. eapply okp_mono; [apply next_token_wf; exact H2|]. intros [t m] [K1 K2].
    destruct (is_eof (ty t)); [apply next_own_wf, H1|]. apply okp_ok. split; [exact K1|]. split; [exact H1|exact K2].
  - apply next_own_wf, H1.
Qed.

(** ** The token vector *)
Lemma pop_newlines_forall P acc : Forall P acc -> Forall P (pop_newlines acc).
Proof. induction 1; cbn [pop_newlines]; [constructor|]. destruct (is_newline _); auto. Qed.

Lemma tokens_loop_wf fuel : forall l acc skip pending, tree_lit l -> Forall wf_tok acc ->
  okp (tokens_loop fuel l acc skip pending) (Forall wf_tok).
Proof.
  induction fuel; intros l acc skip pending Hl Ha; cbn [tokens_loop]; [apply okp_nofuel|].
  apply okp_bind. eapply okp_mono; [apply next_token_wf, Hl|]. intros [t m] [H1 H2]. cbn [fst snd] in *.
  destruct (is_comment (ty t)); [auto|]. destruct (is_doc (ty t)); [auto|].
  destruct (skip && is_newline (ty t)); [auto|]. cbv zeta.
  match goal with |- okp (let '(_, _) := ?x in _) _ => assert (K : wf_tok (fst x)); [|destruct x as [u p]] end.
  { destruct pending; [destruct (can_have_doc _); [|destruct (negb _)]|]; exact H1. }
  cbn [fst] in K.
  assert (L : Forall wf_tok (u :: (if can_follow_collapsible_newline (ty t) then pop_newlines acc else acc))).
  { constructor; [exact K|]. destruct (can_follow_collapsible_newline _); auto using pop_newlines_forall. }
  destruct (is_eof (ty u)); [apply okp_ok, Forall_rev, L|].
  destruct (negb (is_valid (ty u))); [apply okp_ok, Forall_rev, L|].
  apply IHfuel; [destruct m; exact H2|exact L].
Qed.

Lemma tokens_stream fuel s ts : tokens fuel s = Ok ts -> stream ts.
Proof.
  intros H. assert (W : Forall wf_tok ts).
  { apply (tokens_loop_wf fuel (Lexer (new_lx s) KBase None) [] false None); [split; exact I|constructor|exact H]. }
  destruct (tokens_shape _ _ _ H) as (init & t & -> & Ht & Hi). clear H.
  assert (F : forall u, final_token u <-> terminal (ty u) = true).
  { intros u. unfold final_token, error_token, terminal.
    rewrite orb_true_iff, is_eof_iff, <- is_valid_iff, negb_true_iff. reflexivity. }
  induction init as [|u init IH]; inversion W; subst; cbn [app stream].
  - split; [assumption|]. rewrite (proj1 (F t) Ht). reflexivity.
  - inversion Hi; subst. split; [assumption|].
    destruct (terminal (ty u)) eqn:E; [apply F in E; contradiction|]. apply IH; assumption.
Qed.

(** * RubyCalls: calls, commands, references to elements, [yield] and [super]

    [Spine] for the calls of SpecRuby.  No code is modelled here. *)
From Coq Require Import Strings.String NArith ZArith Bool List Lia.
From Verif Require Import Base Token Node ParserBase ParserModel Sexp SpecRuby RubyTransform RubyNodes RubyBase RubyRun RubyBody RubyExpr RubyOps RubyForms RubyArgs.
Import ListNotations.
Open Scope N_scope.
Open Scope list_scope.

Lemma add_call vs : forall t r n l, add_args vs (N_Call t r n l) = N_Call t r n (l ++ vs).
Proof.
  induction vs as [|v vs IH]; intros t r n l; [rewrite app_nil_r; reflexivity|].
  change (add_args (v :: vs) (N_Call t r n l)) with (add_args vs (N_Call t r n (l ++ [v]))). rewrite IH, <- app_assoc. reflexivity.
Qed.
Lemma add_safe vs : forall t r n l, add_args vs (N_SafeCall t r n l) = N_SafeCall t r n (l ++ vs).
Proof.
  induction vs as [|v vs IH]; intros t r n l; [rewrite app_nil_r; reflexivity|].
  change (add_args (v :: vs) (N_SafeCall t r n l)) with (add_args vs (N_SafeCall t r n (l ++ [v]))). rewrite IH, <- app_assoc. reflexivity.
Qed.
Lemma add_super vs : forall t l b, add_args vs (N_Super t l b) = N_Super t (l ++ vs) b.
Proof.
  induction vs as [|v vs IH]; intros t l b; [rewrite app_nil_r; reflexivity|].
  change (add_args (v :: vs) (N_Super t l b)) with (add_args vs (N_Super t (l ++ [v]) b)). rewrite IH, <- app_assoc. reflexivity.
Qed.
Lemma add_yield vs : forall t l, add_args vs (N_Yield t l) = N_Yield t (l ++ vs).
Proof.
  induction vs as [|v vs IH]; intros t l; [rewrite app_nil_r; reflexivity|].
  change (add_args (v :: vs) (N_Yield t l)) with (add_args vs (N_Yield t (l ++ [v]))). rewrite IH, <- app_assoc. reflexivity.
Qed.

(** ** Names of methods *)
Definition method_token (n : token) : bool :=
  (is_a T_BareName n || is_a T_Constant n) && named n || match keyword_name (ty n) with Some _ => true | None => false end.
Definition name_run (nt : token) : M str :=
  match ty nt with
  | T_BareName | T_Constant | T_OperatorName => l <- literal_string nt ;; advance ;;; ret l
  | x => if is_operator x || is_keyword x then l <- type_name nt ;; advance ;;; ret l else unexpected "send method name"
  end.
Lemma method_cases n : method_token n = true ->
  ((ty n = T_BareName \/ ty n = T_Constant) /\ named n = true /\ keyword_name (ty n) = None /\ method_name n = name n) \/
  (exists x, keyword_name (ty n) = Some x /\ method_name n = s2l x).
Proof.
  unfold method_token, is_a, method_name. intros H. apply orb_true_iff in H as [H|H].
  - apply andb_true_iff in H as [H N]. left. apply orb_true_iff in H as [H|H]; apply eqb_eq in H; rewrite H; repeat split; auto.
  - right. destruct (keyword_name (ty n)) as [x|]; [|discriminate H]. exists x. split; reflexivity.
Qed.
Lemma run_name n a r ps d l f : method_token n = true ->
  name_run n (PState a (n :: r) ps d l f) = POk (method_name n) (PState (n :: a) r ps d l f).
Proof.
  intros H. unfold name_run. destruct (method_cases n H) as [(T & N & _ & M)|(x & K & M)]; rewrite M; clear H M.
  - destruct (named_ok n N) as [L _]. unfold literal_string. rewrite L. destruct T as [T|T]; rewrite T; reflexivity.
  - unfold type_name. destruct (ty n); try discriminate K; injection K as <-; reflexivity.
Qed.
Lemma method_not n : method_token n = true -> ttype_eqb (ty n) T_LParen = false.
Proof.
  intros H. destruct (method_cases n H) as [([T|T] & _)|(x & K & _)]; [rewrite T; reflexivity|rewrite T; reflexivity|].
  apply eqb_diff. intros X. rewrite X in K. discriminate K.
Qed.

(** The left edge of an operand that nothing can tear apart. *)
Lemma primary_left0 n : forall e l, (length (text e) <= n)%nat -> fits l e = true -> PRIMARY <= right e -> COMMAND <= left e.
Proof.
  induction n as [|n IHn]; intros e l Hn Hf Hr; [pose proof (text_pos e); lia|].
  unfold PRIMARY, COMMAND in *.
  destruct e; cbn [left right] in *; unfold PRIMARY, ARGUMENT, COMMAND in *; try (clear - Hr; lia).
  - exfalso. cbn [fits] in Hf. apply andb_true_iff in Hf as [_ Hf]. destruct (binary_level (ty t)) eqn:Eb; [|discriminate Hf].
    cbn [level_of] in Hr. assert (X : n0 <= 15) by (clear - Eb; destruct (ty t); try discriminate Eb; injection Eb as <-; lia).
    clear - Hr X. lia.
  - destruct r as [|r d]; [lia|]. destruct (number r); [lia|]. cbn [fits text recv_text] in Hf, Hn. rewrite !app_length in Hn. cbn [length] in Hn.
    apply andb_true_iff in Hf as [Hf _]. bools. eapply (IHn r l); [clear - Hn; lia|eassumption|assumption].
  - cbn [fits text] in Hf, Hn. rewrite app_length in Hn. cbn [length] in Hn. bools. eapply (IHn e l); [clear - Hn; lia|eassumption|assumption].
  - cbn [fits text] in Hf, Hn. rewrite app_length in Hn. cbn [length] in Hn. bools. eapply (IHn e l); [clear - Hn; lia|eassumption|assumption].
  - cbn [fits text] in Hf, Hn. rewrite app_length in Hn. cbn [length] in Hn. bools.
    destruct e; try discriminate; cbn [left right] in *; unfold PRIMARY, COMMAND in *; try (clear; lia).
    match goal with H : fits l (R_call _ _ _) = true |- _ => refine (IHn _ l _ H _); [clear - Hn; lia|cbn [right]; unfold PRIMARY; lia] end.
Qed.
Lemma primary_left e l : fits l e = true -> PRIMARY <= right e -> COMMAND <= left e.
Proof. apply (primary_left0 _ e l (le_n _)). Qed.
Lemma primary_number e : PRIMARY <= right e -> number e = true -> left e = PRIMARY.
Proof.
  destruct e; cbn [right number left]; try discriminate; intros H N; reflexivity.
Qed.
Lemma lthr_36 n : lthr n <= 36.
Proof. unfold lthr. repeat match goal with |- context [?a <=? ?b] => destruct (N.leb_spec a b); try lia end. Qed.
Lemma rthr_17 n : PRIMARY <= n -> rthr n = 39.
Proof. unfold PRIMARY. intros H. pose proof (rthr_mono 17 n H). change (rthr 17) with 39 in H0. unfold rthr in *. repeat match goal with |- context [?a <=? ?b] => destruct (N.leb_spec a b); try lia end. Qed.

Lemma map_all_app {A B} (g : list str -> A -> list str) (h : list str -> A -> B) xs ys : forall l,
  map_all g h l (xs ++ ys) = map_all g h l xs ++ map_all g h (after_all g l xs) ys.
Proof. induction xs as [|x xs IH]; intros l; [reflexivity|]. cbn [app map_all after_all]. rewrite IH. reflexivity. Qed.
Lemma after_all_app {A} (g : list str -> A -> list str) xs ys : forall l,
  after_all g l (xs ++ ys) = after_all g (after_all g l xs) ys.
Proof. induction xs as [|x xs IH]; intros l; [reflexivity|]. cbn [app after_all]. apply IH. Qed.
Lemma ended_snoc (xs : list (rb * token)) e u : forallb (fun x => is_a T_Comma (snd x)) xs = true ->
  ended u (map snd (xs ++ [(e, u)]) ++ map (@pair_end rb) []).
Proof.
  cbn [map]. rewrite app_nil_r. induction xs as [|[x s] xs IH]; intros H; [reflexivity|].
  cbn [forallb snd] in H. apply andb_true_iff in H as [H1 H2]. apply is_a_ty in H1. specialize (IH H2).
  cbn [app map snd]. destruct (map snd (xs ++ [(e, u)])) eqn:El; [destruct xs; discriminate El|]. split; assumption.
Qed.

(** A token that begins the argument of a command. *)
Lemma first_arg E F t pk v p : begins_argument t || is_a T_SymbolKey t = true -> is_callable v = true ->
  match v with N_Identifier _ lvar => lvar | _ => false end = false ->
  (get_precedence t (Some v) = CALL \/ get_precedence t (Some v) = UNARY_PLUS \/ get_precedence t (Some v) = CONSTANT_RESOLUTION) /\
  left_denotation E F t pk v p = Some (parse_call_expression_without_parens E F) /\ is_valid (ty t) = true /\
  (forall A (x y : A), match ty t with T_Comma | T_Eof | T_Newline | T_RBracket | T_RCurlyBrace | T_RParen | T_Semicolon => x | _ => y end = y).
Proof.
  unfold begins_argument, is_a. intros H C L.
  unfold get_precedence, left_denotation, is_first_arg_of_call_without_parens, treat_left_bracket_as_element_reference. rewrite C, L. cbn [andb].
  apply orb_true_iff in H as [H|H]; [|apply eqb_eq in H; rewrite H; cbn; auto]. apply orb_true_iff in H as [H|H].
  - apply orb_true_iff in H as [H|H].
    + apply orb_true_iff in H as [H|H]; destruct (ty t); try discriminate H; cbn; auto.
    + apply andb_true_iff in H as [H W]. rewrite W. cbn [negb orb].
      apply orb_true_iff in H as [H|H]; [apply orb_true_iff in H as [H|H]|]; apply eqb_eq in H; rewrite H; cbn; auto.
  - destruct (ty t); try discriminate H; cbn; auto 8.
Qed.

Section Calls.
Variable m : nat.
Hypothesis IH : Main m.
Hypothesis IH0 : Main (pred m).
Notation E := (parse_expression m).
Notation F := (m + m + 2)%nat.

(** ** Arguments in parentheses *)
Lemma parens_ok A call lhs r a ps d0 d l f :
  args_fit after (as_argument fits) (all_fit after (as_item fits)) (as_operand fits) l A = true -> A <> A_none -> (length (args_text text A) <= m)%nat ->
  (args_shallow shallow A = true -> d0 = 0) ->
  (forall s, to_node_with_args lhs s = POk call s) ->
  exists vs, Forall2 stands vs (args_meaning after meaning l A) /\ (passes A = false -> forallb nopass vs = true) /\
    ty (last (args_text text A) no_token) = T_RParen /\
    parse_call_expression_with_parens E F lhs (PState a (args_text text A ++ r) ps (d0 :: d) l f) =
    POk (add_args vs call) (PState (rev (args_text text A) ++ a) r ps (d0 :: d) (args_after after l A) f).
Proof.
  intros Hf Ha Hm Hd Hn. destruct A as [|o c|o xs pr|o xs pr t e c]; [contradiction| | |].
  - cbn [args_fit] in Hf. apply andb_true_iff in Hf as [Hf Tc]. apply andb_true_iff in Hf as [To Wo]. apply is_a_ty in To, Tc. apply negb_true_iff in Wo.
    exists []. split; [constructor|]. split; [intros _; reflexivity|]. split; [exact Tc|].
    unfold parse_call_expression_with_parens. cbn [args_text app]. run1. rewrite (bind_ok _ _ _ _ _ (Hn _)). run. rewrite Wo. run. reflexivity.
  - cbn [args_fit] in Hf. apply andb_true_iff in Hf as [Hf Hq]. apply andb_true_iff in Hf as [Hf Hx]. apply andb_true_iff in Hf as [Hf Hc].
    apply andb_true_iff in Hf as [To Wo]. apply is_a_ty in To. apply negb_true_iff in Wo. cbn [args_text length] in Hm. fold (pairs_text pr) in Hm.
    destruct (closed_ended _ _ Hc) as (c & Tc & Ec).
    destruct (args_ok m IH IH0 false T_RParen c xs pr call r (o :: a) ps d0 d l f eq_refl eq_refl ltac:(rewrite Tc; discriminate)
      ltac:(rewrite Tc; discriminate) ltac:(rewrite Tc; discriminate) ltac:(rewrite Tc; discriminate)
      ltac:(apply closer_stopper; unfold closer; rewrite Tc; reflexivity) Ec Hx Hq ltac:(clear - Hm; lia) Hd) as (vs & w & [Sv Nv] & Ew & R).
    exists vs. split; [exact Sv|]. split; [intros _; exact Nv|].
    cbn [args_text app]. fold (pairs_text pr). split; [rewrite Ew, app_comm_cons, last_last; exact Tc|].
    assert (Hh : ttype_eqb (ty (hd no_token ((items_text text xs ++ pairs_text pr) ++ r))) T_RParen = false).
    { destruct xs as [|[e s] xs].
      - destruct pr as [|x pr]; [discriminate Hc|]. cbn [items_text flat_map app]. rewrite pairs_text_cons, <- app_assoc.
        apply pairs_fit_cons in Hq as [Hq _].
        apply (pair_hd x _ (fun t => ttype_eqb t T_RParen) _ Hq); [reflexivity|reflexivity|]. intros t0 St. apply starts_not; [reflexivity|assumption].
      - rewrite items_text_cons, <- !app_assoc, hd_text. apply all_fit_cons in Hx as [Hx _].
        apply (item_hd _ _ (fun t => ttype_eqb t T_RParen) Hx); [reflexivity|]. intros t0 St. apply starts_not; [reflexivity|assumption]. }
    unfold parse_call_expression_with_parens. run1. rewrite (bind_ok _ _ _ _ _ (Hn _)). run1.
    change (bind cur ?h (PState ?x1 ?x2 ?x3 ?x4 ?x5 ?x6)) with (h (hd no_token x2) (PState x1 x2 x3 x4 x5 x6)). cbv beta.
    rewrite Hh. unfold parse_call_args. cbn [andb]. cbv zeta. run1. run1.
    assert (R' : forall k : node -> M node, bind (parse_call_args E F call false T_RParen) k (PState (o :: a) ((items_text text xs ++ pairs_text pr) ++ r) ps (d0 :: d) l f) =
      k (add_args vs call) (PState (rev w ++ o :: a) (c :: r) ps (d0 :: d) (after_all (pair_after after) (items_after after l xs) pr) f)).
    { intros k. apply bind_ok. unfold parse_call_args. cbv zeta. cbn [andb]. run1. etransitivity; [exact (R _)|]. reflexivity. }
    etransitivity; [exact (R' _)|]. run. rewrite Ew. cbn [rev args_after]. rewrite rev_app_distr. cbn [rev app]. rewrite <- app_assoc. reflexivity.
  - cbn [args_fit] in Hf. apply andb_true_iff in Hf as [Hf He]. apply andb_true_iff in Hf as [Hf Tc]. apply andb_true_iff in Hf as [Hf Tt].
    apply andb_true_iff in Hf as [Hf Hq]. apply andb_true_iff in Hf as [Hf Hx]. apply andb_true_iff in Hf as [Hf Cp]. apply andb_true_iff in Hf as [Hf Cx].
    apply andb_true_iff in Hf as [To Wo]. apply is_a_ty in To, Tt, Tc. apply negb_true_iff in Wo. cbn [args_text length] in Hm. fold (pairs_text pr) in Hm.
    destruct (pass_ok m IH IH0 xs pr t e c call r (o :: a) ps d0 d l f Cx Cp Hx Hq Tt Tc He
      ltac:(clear - Hm; rewrite !app_length in *; cbn [length] in *; rewrite !app_length in *; cbn [length] in *; lia) Hd) as (vs & Sv & R).
    exists vs. split; [exact Sv|]. split; [discriminate|]. cbn [args_text]. fold (pairs_text pr).
    split.
    { rewrite app_comm_cons, (app_comm_cons (text e)), app_assoc, last_last. exact Tc. }
    assert (Tx : (o :: (items_text text xs ++ pairs_text pr) ++ t :: text e ++ [c]) ++ r = o :: (items_text text xs ++ pairs_text pr) ++ t :: text e ++ c :: r).
    { cbn [app]. rewrite <- !app_assoc. cbn [app]. rewrite <- !app_assoc. reflexivity. }
    rewrite Tx.
    assert (Hh : ttype_eqb (ty (hd no_token ((items_text text xs ++ pairs_text pr) ++ t :: text e ++ c :: r))) T_RParen = false).
    { destruct xs as [|[e1 s1] xs].
      - destruct pr as [|x pr]; [cbn [items_text pairs_text flat_map app hd]; rewrite Tt; reflexivity|]. cbn [items_text flat_map app]. rewrite pairs_text_cons, <- app_assoc.
        apply pairs_fit_cons in Hq as [Hq _].
        apply (pair_hd x _ (fun t => ttype_eqb t T_RParen) _ Hq); [reflexivity|reflexivity|]. intros t0 St. apply starts_not; [reflexivity|assumption].
      - rewrite items_text_cons, <- !app_assoc, hd_text. apply all_fit_cons in Hx as [Hx _].
        apply (item_hd _ _ (fun t => ttype_eqb t T_RParen) Hx); [reflexivity|]. intros t0 St. apply starts_not; [reflexivity|assumption]. }
    unfold parse_call_expression_with_parens. run1. rewrite (bind_ok _ _ _ _ _ (Hn _)). run1.
    change (bind cur ?h (PState ?x1 ?x2 ?x3 ?x4 ?x5 ?x6)) with (h (hd no_token x2) (PState x1 x2 x3 x4 x5 x6)). cbv beta.
    rewrite Hh.
    erewrite bind_ok; [|unfold parse_call_args; cbv zeta; cbn [andb]; run1; exact (R _)]. cbn [andb]. cbv beta.
    run. cbn [rev args_after]. rewrite !rev_app_distr. cbn [rev app]. rewrite !rev_app_distr. cbn [rev app]. rewrite <- !app_assoc. reflexivity.
Qed.
(** The round of arguments in parentheses. *)
Lemma parens_round p ia k s lhs call A u r a ps d0 d l f :
  reach m p ia k s lhs (PState a (args_text text A ++ u :: r) (p :: ps) (d0 :: d) l f) -> plain lhs = true -> p < 38 ->
  args_fit after (as_argument fits) (all_fit after (as_item fits)) (as_operand fits) l A = true -> A <> A_none -> (length (args_text text A) <= m)%nat ->
  (args_shallow shallow A = true -> d0 = 0) ->
  (forall s, to_node_with_args lhs s = POk call s) ->
  exists vs, Forall2 stands vs (args_meaning after meaning l A) /\ (passes A = false -> forallb nopass vs = true) /\
    ty (last (args_text text A) no_token) = T_RParen /\
    reach m p ia (S k) s (add_args vs call) (PState (rev (args_text text A) ++ a) (u :: r) (p :: ps) (d0 :: d) (args_after after l A) f).
Proof.
  intros R Pl Lp Hf Ha Hm Hd Hn. destruct (parens_ok A call lhs (u :: r) a (p :: ps) d0 d l f Hf Ha Hm Hd Hn) as (vs & Sv & Nv & Tl & V).
  exists vs. split; [exact Sv|]. split; [exact Nv|]. split; [exact Tl|].
  assert (H : exists o w, args_text text A = o :: w /\ ty o = T_LParen /\ tk_ws o = false).
  { destruct A as [|o c|o xs pr|o xs pr t e c]; [contradiction| | |]; eexists; eexists; (split; [reflexivity|]); cbn [args_fit] in Hf;
      repeat (match goal with H : _ && _ = true |- _ => apply andb_true_iff in H as [? ?] end);
      (split; [apply is_a_ty; assumption|apply negb_true_iff; assumption]). }
  destruct H as (o & w & Eo & To & Wo). rewrite Eo in V, R |- *. cbn [app] in R, V.
  refine (reach_round m p ia k s lhs a o (w ++ u :: r) (p :: ps) (d0 :: d) l f (parse_call_expression_with_parens E F) _ _ _ ps p (d0 :: d) _ f R _ _ _ V).
  - rewrite To. reflexivity.
  - unfold higher_precedence, get_precedence. rewrite (plain_key lhs Pl), To. apply N.ltb_lt in Lp. change CALL with 38.
    change (38 =? ITER_BLOCK) with false. change (38 =? ITER_CURLY) with false. cbv beta iota zeta. rewrite Lp. reflexivity.
  - unfold left_denotation. rewrite To, Wo. reflexivity.
Qed.

(** The round of a dot and a name. *)
Definition dot_node (t : token) (v : node) (n : str) (l : list node) : node :=
  if ttype_eqb (ty t) T_SafeNavigation then N_SafeCall t v n l else N_Call t v n l.
Lemma dot_round p ia k s v t n r a ps d l f :
  reach m p ia k s v (PState a (t :: n :: r) (p :: ps) d l f) -> plain v = true -> ty t = T_Dot \/ ty t = T_SafeNavigation ->
  p < (if is_numeric v then 31 else 37) -> method_token n = true ->
  reach m p ia (S k) s (dot_node t v (method_name n) []) (PState (n :: t :: a) r (p :: ps) d l f).
Proof.
  intros R Pl Tt Lp Hn.
  assert (Kt : okf t = true /\ ty t <> T_DoKeyword /\ ty t <> T_LCurlyBrace /\ level (ty t) (is_numeric v) = (if is_numeric v then 31 else 37))
    by (unfold okf; destruct Tt as [T|T]; rewrite T; repeat split; discriminate).
  destruct Kt as (Kt & T1 & T2 & T3).
  assert (H : higher_precedence t v p ia (PState a (t :: n :: r) (p :: ps) d l f) = POk true (PState a (t :: n :: r) (p :: ps) d l f)).
  { apply higher; try assumption. rewrite T3. exact Lp. }
  pose proof (run_name n (t :: a) r (p :: ps) d l f Hn) as Rn. unfold name_run in Rn.
  unfold dot_node. destruct Tt as [T|T].
  - refine (reach_round m p ia k s v a t (n :: r) (p :: ps) d l f parse_send_expression _ _ _ ps p d _ f R (okf_valid t Kt) H _ _).
    + unfold left_denotation. rewrite T. cbn [hd]. rewrite (method_not n Hn). reflexivity.
    + unfold parse_send_expression. run. rewrite (bind_ok _ _ _ _ _ Rn). reflexivity.
  - refine (reach_round m p ia k s v a t (n :: r) (p :: ps) d l f parse_safe_send_expression _ _ _ ps p d _ f R (okf_valid t Kt) H _ _).
    + unfold left_denotation. rewrite T. reflexivity.
    + unfold parse_safe_send_expression. run.
      rewrite (bind_ok _ _ _ (method_name n) (PState (n :: t :: a) r (p :: ps) d l f)); [reflexivity|].
      rewrite <- Rn. clear - Hn. destruct (method_cases n Hn) as [([X|X] & _)|(x & K & _)]; [rewrite X; reflexivity|rewrite X; reflexivity|].
      destruct (ty n); try discriminate K; reflexivity.
Qed.

Lemma call_good l r n A t rn vs : stands rn (recv_meaning meaning l r) ->
  Forall2 stands vs (args_meaning after meaning (recv_after after l r) A) -> (passes A = false -> forallb nopass vs = true) ->
  (vs <> [] -> ty (last_token (R_call r n A)) = T_RParen) ->
  good l (R_call r n A) (match r with V_none => N_Call t rn (method_name n) vs | V_dot _ d => dot_node d rn (method_name n) vs end).
Proof.
  intros Sr Sv Nv Lt.
  assert (B : forall v, v = N_Call t rn (method_name n) vs \/ (exists d, v = N_SafeCall d rn (method_name n) vs) \/ (exists d, v = N_Call d rn (method_name n) vs) ->
    stands v (meaning l (R_call r n A)) -> good l (R_call r n A) v).
  { intros v Hv S. 
    assert (I : integer (meaning l (R_call r n A)) = None).
    { cbn [meaning]. apply integer_tag. destruct r as [|x d]; cbn [call_tag]; [reflexivity|destruct (ttype_eqb (ty d) T_SafeNavigation); reflexivity]. }
    constructor; try exact Logic.I; try exact S.
    - destruct Hv as [->|[(d & ->)|(d & ->)]]; reflexivity.
    - rewrite I. destruct Hv as [->|[(d & ->)|(d & ->)]]; reflexivity.
    - destruct Hv as [->|[(d & ->)|(d & ->)]]; reflexivity.
    - destruct Hv as [->|[(d & ->)|(d & ->)]]; reflexivity.
    - intros br Hb. cbn [blockable] in Hb. apply andb_true_iff in Hb as [Hb Hp]. apply negb_true_iff in Hp. pose proof (no_pass vs (Nv Hp)) as NP. unfold takes_block in Hb.
      destruct Hv as [->|[(d & ->)|(d & ->)]]; cbn [is_callable can_accept_a_block has_block_pass]; rewrite Hb, NP; repeat split;
        intros _; try exact Logic.I; destruct vs; try exact Logic.I; apply Lt; discriminate. }
  destruct r as [|x d]; apply B.
  - left. reflexivity.
  - cbn [meaning call_tag recv_meaning]. apply stands_call; assumption.
  - unfold dot_node. destruct (ttype_eqb (ty d) T_SafeNavigation); [right; left|right; right]; eexists; reflexivity.
  - cbn [meaning call_tag recv_meaning]. unfold dot_node. destruct (ttype_eqb (ty d) T_SafeNavigation); [apply stands_safe|apply stands_call]; assumption.
Qed.

Lemma last_app_nil {A} (x : list A) y z : y <> [] -> last (x ++ y) z = last y z.
Proof.
  intros H. induction x as [|b x IHx]; [reflexivity|]. cbn [app last].
  destruct (x ++ y) eqn:Exy; [destruct x; [contradiction|discriminate Exy]|exact IHx].
Qed.

Lemma spine_call r n A : (forall x d, r = V_dot x d -> Spine m x) -> Spine m (R_call r n A).
Proof.
  intros Sr p ia u w a ps d0 d l f Hm K. pose proof (f_fits _ _ _ _ _ _ K) as Hf. pose proof (f_left _ _ _ _ _ _ K) as Lk.
  cbn [fits] in Hf. apply andb_true_iff in Hf as [Hf Fa].
  pose proof (f_shallow _ _ _ _ _ _ K) as Sk. cbn [shallow] in Sk.
  destruct r as [|x t].
  - apply andb_true_iff in Hf as [Hf Ha]. apply andb_true_iff in Hf as [Tn Nn].
    assert (Ha' : A <> A_none) by (intros X; rewrite X in Ha; discriminate Ha).
    assert (T : ty n = T_BareName \/ ty n = T_Constant) by (apply orb_true_iff in Tn as [Tn|Tn]; apply is_a_ty in Tn; auto).
    destruct (named_ok n Nn) as [Ln _].
    assert (Mn : method_name n = name n) by (unfold method_name; destruct T as [T|T]; rewrite T; reflexivity).
    cbn [text recv_text app length] in Hm.
    assert (R0 : reach m p ia 0 (PState a (n :: args_text text A ++ u :: w) (p :: ps) (d0 :: d) l f) (N_Identifier n (bound l (name n)))
       (PState (n :: a) (args_text text A ++ u :: w) (p :: ps) (d0 :: d) l f)).
    { apply (reach_null m p ia a (n :: args_text text A ++ u :: w) (p :: ps) (d0 :: d) l f parse_identifier).
      - cbn [hd]. destruct T as [T|T]; rewrite T; reflexivity.
      - apply run_identifier. exact Nn. }
    destruct (parens_round p ia 0 _ _ (N_Call n (N_Nil n) (name n) []) A u w (n :: a) ps d0 d l f R0 eq_refl
      ltac:(cbn [left] in Lk; clear - Lk; pose proof (lthr_36 PRIMARY); lia) Fa Ha' ltac:(clear - Hm; lia)
      ltac:(intros X; apply Sk; cbn [recv_shallow orb]; exact X)
      ltac:(intros s; unfold to_node_with_args, literal_string; rewrite Ln; reflexivity)) as (vs & Sv & Nv & Tl & R).
    rewrite add_call in R. cbn [app] in R. exists (N_Call n (N_Nil n) (name n) vs), 1%nat. split; [|split].
    + rewrite <- Mn. apply (call_good l V_none n A n (N_Nil n) vs); [apply stands_nil|exact Sv|exact Nv|].
      intros _. unfold last_token. cbn [text recv_text app]. change (n :: args_text text A) with ([n] ++ args_text text A).
      rewrite last_app_nil; [exact Tl|]. destruct A; [contradiction|discriminate..].
    + cbn [text recv_text app length]. clear; lia.
    + cbn [text recv_text app after recv_after rev]. rewrite <- app_assoc. exact R.
  - apply andb_true_iff in Hf as [Hf Mt]. fold (method_token n) in Mt. apply andb_true_iff in Hf as [Hf Rx]. apply andb_true_iff in Hf as [Tt Fx].
    apply N.leb_le in Rx.
    assert (T : ty t = T_Dot \/ ty t = T_SafeNavigation) by (apply orb_true_iff in Tt as [Tt|Tt]; apply is_a_ty in Tt; auto).
    cbn [text recv_text] in Hm. rewrite !app_length in Hm. cbn [length] in Hm.
    assert (Kt : okf t = true /\ ty t <> T_DoKeyword /\ ty t <> T_Comma /\ ty t <> T_HashRocket /\ forall b, level (ty t) b <= 39)
      by (unfold okf; destruct T as [T|T]; rewrite T; repeat split; try discriminate; intros []; discriminate).
    destruct Kt as (Kt & T1 & T2 & T3 & T4).
    destruct (left_operand m (R_call (V_dot x t) n A) x t p ia u (n :: args_text text A ++ u :: w) a ps d0 d l f (Sr x t eq_refl) K Fx ltac:(clear - Hm; lia) Kt) as (v & j & G & Hj & R).
    { cbn [left]. destruct (number x) eqn:Nx; [rewrite (primary_number x Rx Nx); discriminate|apply N.le_refl]. }
    { rewrite (rthr_17 _ Rx). apply T4. } { intros X. cbn [shallow recv_shallow]. rewrite X. reflexivity. }
    { exact T1. } { exact T2. } { exact T3. }
    { intros X. apply returns_right in X. unfold PRIMARY in Rx. clear - X Rx. lia. }
    assert (R1 := dot_round p ia j _ v t n (args_text text A ++ u :: w) (rev (text x) ++ a) ps (d0 :: d) (after l x) f R (g_plain _ _ _ G) T
      ltac:(rewrite (g_number _ _ _ G); cbn [left] in Lk; clear - Lk; destruct (number x); [change (lthr 13) with 30 in Lk; lia|pose proof (lthr_36 (left x)); lia]) Mt).
    assert (Fin : exists vs j', Forall2 stands vs (args_meaning after meaning (after l x) A) /\ (passes A = false -> forallb nopass vs = true) /\
      (vs <> [] -> A <> A_none /\ ty (last (args_text text A) no_token) = T_RParen) /\ (j' <= length (text x) + S (length (args_text text A)))%nat /\
      reach m p ia j' (PState a (text x ++ t :: n :: args_text text A ++ u :: w) (p :: ps) (d0 :: d) l f) (dot_node t v (method_name n) vs)
        (PState (rev (args_text text A) ++ n :: t :: rev (text x) ++ a) (u :: w) (p :: ps) (d0 :: d) (args_after after (after l x) A) f)).
    { assert (Hc : A = A_none \/ A <> A_none) by (destruct A; [left; reflexivity|right; discriminate..]). destruct Hc as [Hc|Hc].
      - subst A. exists [], (S j). split; [constructor|]. split; [reflexivity|]. split; [intros X; contradiction|]. split; [clear - Hj; cbn; lia|exact R1].
      - destruct (parens_round p ia (S j) _ _ (dot_node t v (method_name n) []) A u w _ ps d0 d (after l x) f R1
          ltac:(unfold dot_node; destruct (ttype_eqb (ty t) T_SafeNavigation); reflexivity)
          ltac:(clear - Lk; match type of Lk with _ < lthr ?z => pose proof (lthr_36 z) end; lia) Fa Hc ltac:(clear - Hm; lia)
          ltac:(intros X; apply Sk; rewrite X, orb_true_r; reflexivity)
          ltac:(intros s; unfold dot_node; destruct (ttype_eqb (ty t) T_SafeNavigation); reflexivity)) as (vs & Sv & Nv & Tl & R2).
        exists vs, (S (S j)). split; [exact Sv|]. split; [exact Nv|]. split; [intros _; split; [exact Hc|exact Tl]|].
        split; [clear - Hj Hc; destruct A; [contradiction|cbn [args_text length]; lia..]|].
        unfold dot_node in *. destruct (ttype_eqb (ty t) T_SafeNavigation); [rewrite add_safe in R2|rewrite add_call in R2]; exact R2. }
    destruct Fin as (vs & j' & Sv & Nv & Lv & Hj' & R2).
    exists (dot_node t v (method_name n) vs), j'. split; [|split].
    + apply (call_good l (V_dot x t) n A t v vs); [exact (g_stands _ _ _ G)|exact Sv|exact Nv|].
      intros X. destruct (Lv X) as [Na Tl]. unfold last_token. cbn [text recv_text]. rewrite last_app_nil by discriminate.
      change (n :: args_text text A) with ([n] ++ args_text text A). rewrite last_app_nil; [exact Tl|]. destruct A; [contradiction|discriminate..].
    + cbn [text recv_text]. rewrite !app_length. cbn [length]. clear - Hj'. lia.
    + cbn [text recv_text after recv_after]. rewrite !rev_app_distr. cbn [rev app]. rewrite <- !app_assoc. cbn [app]. exact R2.
Qed.

(** ** References to elements *)
Lemma spine_index x o xs : Spine m x -> Spine m (R_index x o xs).
Proof.
  intros Sx p ia u r a ps d0 d l f Hm K. pose proof (f_fits _ _ _ _ _ _ K) as Hf. cbn [fits] in Hf.
  apply andb_true_iff in Hf as [Hf Hx]. apply andb_true_iff in Hf as [Hf Hc]. apply andb_true_iff in Hf as [Hf Wo].
  apply andb_true_iff in Hf as [Hf To]. apply andb_true_iff in Hf as [Fx Rx]. apply is_a_ty in To. apply N.leb_le in Rx. apply negb_true_iff in Wo.
  cbn [text] in Hm. rewrite app_length in Hm. cbn [length] in Hm.
  pose proof (f_shallow _ _ _ _ _ _ K) as Sk. cbn [shallow] in Sk.
  assert (Ko : okf o = true) by (unfold okf; rewrite To, Wo; reflexivity).
  destruct (left_operand m (R_index x o xs) x o p ia u (items_text text xs ++ u :: r) a ps d0 d l f Sx K Fx ltac:(clear - Hm; lia) Ko) as (v & j & G & Hj & R).
  { apply N.le_refl. } { rewrite (rthr_17 _ Rx), To. discriminate. } { intros X; cbn [shallow]; rewrite X; reflexivity. }
  { rewrite To; discriminate. } { rewrite To; discriminate. } { rewrite To; discriminate. }
  { intros X. apply returns_right in X. unfold PRIMARY in Rx. clear - X Rx. lia. }
  destruct (closed_ended _ _ Hc) as (c & Tc & Ec).
  destruct (args_ok m IH IH0 false T_RBracket c xs [] (N_Call o v (s2l "[]") []) (u :: r) (o :: rev (text x) ++ a) (p :: ps) d0 d (after l x) f eq_refl eq_refl
    ltac:(rewrite Tc; discriminate) ltac:(rewrite Tc; discriminate) ltac:(rewrite Tc; discriminate) ltac:(rewrite Tc; discriminate)
    ltac:(apply closer_stopper; unfold closer; rewrite Tc; reflexivity) ltac:(cbn [map]; rewrite app_nil_r; exact Ec) Hx eq_refl
    ltac:(cbn [pairs_text flat_map]; rewrite app_nil_r; clear - Hm; lia)
    ltac:(cbn [existsb]; rewrite orb_false_r; intros X; apply Sk; rewrite X, orb_true_r; reflexivity)) as (vs & w & [Sv Nv] & Ew & V).
  cbn [pairs_text flat_map after_all] in Ew, V. rewrite app_nil_r in Ew, V. cbn [listed_meaning] in Sv.
  exists (N_Call o v (s2l "[]") vs), (S j). split; [|split].
  - apply good_ordinary; try reflexivity.
    + apply stands_call; [exact (g_stands _ _ _ G)|exact Sv].
    + symmetry. apply integer_tag. reflexivity.
  - cbn [text]. rewrite app_length. cbn [length]. clear - Hj. lia.
  - cbn [text after]. rewrite rev_app_distr. cbn [rev]. rewrite <- !app_assoc. cbn [app].
    refine (reach_round m p ia j _ v _ o (items_text text xs ++ u :: r) (p :: ps) (d0 :: d) _ f (parse_ref_expression E F) _ _ _ ps p (d0 :: d) _ f R _ _ _ _).
    + apply okf_valid. exact Ko.
    + apply higher; [exact Ko|exact (g_plain _ _ _ G)|rewrite To; discriminate|rewrite To; discriminate|].
      rewrite To. pose proof (f_left _ _ _ _ _ _ K) as L. cbn [left] in L. cbn [level]. pose proof (lthr_36 (left x)). clear - L H. lia.
    + unfold left_denotation. rewrite To. unfold treat_left_bracket_as_element_reference. rewrite Wo. reflexivity.
    + unfold parse_ref_expression. run. cbv zeta.
      change (bind (cur_is T_RBracket) ?h (PState ?x1 ?x2 ?x3 ?x4 ?x5 ?x6)) with (h (ttype_eqb (ty (hd no_token x2)) T_RBracket) (PState x1 x2 x3 x4 x5 x6)). cbv beta.
      assert (Hh : ttype_eqb (ty (hd no_token (items_text text xs ++ u :: r))) T_RBracket = false).
      { destruct xs as [|[e s] xs]; [discriminate Hc|].
        rewrite items_text_cons, <- !app_assoc, hd_text. apply all_fit_cons in Hx as [Hx _].
        apply (item_hd _ _ (fun t => ttype_eqb t T_RBracket) Hx); [reflexivity|]. intros t0 St. apply starts_not; [reflexivity|assumption]. }
      rewrite Hh.
      assert (V' : parse_call_args E F (N_Call o v (s2l "[]") []) false T_RBracket (PState (o :: rev (text x) ++ a) (items_text text xs ++ u :: r) (p :: ps) (d0 :: d) (after l x) f) =
        POk (add_args vs (N_Call o v (s2l "[]") [])) (PState (rev w ++ o :: rev (text x) ++ a) (c :: u :: r) (p :: ps) (d0 :: d) (items_after after (after l x) xs) f)).
      { unfold parse_call_args. cbv zeta. cbn [andb]. run1. etransitivity; [exact (V _)|]. reflexivity. }
      rewrite (bind_ok _ _ _ _ _ V'). rewrite add_call. cbn [app]. run. rewrite Ew, rev_app_distr. reflexivity.
Qed.

(** ** Commands *)
Definition is_command (e : rb) : bool := match e with R_command _ _ _ _ | R_keywords _ _ _ _ _ _ _ => true | _ => false end.
Lemma spine_listed e0 r n body (ysf : token -> list (rb * token)) (prf : token -> list (pair rb)) :
  is_command e0 = true -> text e0 = recv_text text r ++ n :: body ->
  (forall l br, blockable l br e0 = negb br && takes_block (method_name n)) -> block_head e0 = takes_block (method_name n) ->
  (forall u, items_text text (ysf u) ++ pairs_text (prf u) = body ++ [u]) ->
  (forall l u, after l e0 = after_all (pair_after after) (items_after after (recv_after after l r) (ysf u)) (prf u)) ->
  (forall l u, meaning l e0 = sx (call_tag r) (recv_meaning meaning l r :: SSym (method_name n) :: listed_meaning after meaning (recv_after after l r) (ysf u) (prf u))) ->
  (forall l, fits l e0 = true ->
     match r with V_none => negb (bound l (name n)) | V_dot r d => (is_a T_Dot d || is_a T_SafeNavigation d) && fits l r && (PRIMARY <=? right r) end = true /\
     is_a T_BareName n = true /\ named n = true /\
     (begins_argument (hd n body) || is_a T_SymbolKey (hd n body) = true /\ body <> []) /\
     forall u, ended u (map snd (ysf u) ++ map pair_end (prf u)) /\ all_fit after (as_item fits) (recv_after after l r) (ysf u) = true /\
       pairs_fit after (as_argument fits) (as_operand fits) (items_after after (recv_after after l r) (ysf u)) (prf u) = true /\
       items_shallow shallow (ysf u) || existsb (pair_shallow shallow) (prf u) = false) ->
  (forall x d, r = V_dot x d -> Spine m x) -> Spine m e0.
Proof.
  intros Kc Tx Bl Bh Ty' Af' Me Ft Sr p ia u w a ps d0 d l f Hm K. pose proof (f_fits _ _ _ _ _ _ K) as Hf. pose proof (f_left _ _ _ _ _ _ K) as Lk.
  pose proof (f_right _ _ _ _ _ _ K) as Rk. pose proof (f_comma _ _ _ _ _ _ K) as Ck. pose proof (f_tok _ _ _ _ _ _ K) as Ku.
  assert (Sh0 : shallow e0 = true) by (destruct e0; try discriminate Kc; reflexivity).
  assert (L0 : left e0 = COMMAND) by (destruct e0; try discriminate Kc; reflexivity).
  assert (R0' : right e0 = COMMAND) by (destruct e0; try discriminate Kc; reflexivity).
  assert (N0 : number e0 = false) by (destruct e0; try discriminate Kc; reflexivity).
  destruct (f_shallow _ _ _ _ _ _ K Sh0) as [Zd Zi]. subst d0.
  destruct (Ft l Hf) as (Hr & Tn & Nn & (Hb & Hbn) & Hu). specialize (Hu u). destruct Hu as (Eu & Fy & Fp & Ny). apply is_a_ty in Tn.
  destruct (named_ok n Nn) as [Ln _].
  assert (Mn : method_name n = name n) by (unfold method_name; rewrite Tn; reflexivity).
  rewrite L0 in Lk. rewrite R0', N0 in Rk. rewrite R0' in Ck. change (lthr COMMAND) with 15 in Lk. change (rthr COMMAND) with 7 in Rk.
  set (l1 := recv_after after l r) in *. specialize (Ty' u). specialize (Af' l u). fold l1 in Af'. pose proof (fun l => Me l u) as Me'. clear Me.
  set (ys := ysf u) in *. set (pr := prf u) in *. set (body' := items_text text ys ++ pairs_text pr) in *.
  assert (Nu : ty u <> T_Comma /\ ty u <> T_HashRocket /\ ty u <> T_StarStar /\ ty u <> T_Ampersand).
  { unfold COMMAND in Ck. repeat split; intros X; [specialize (Ck (or_introl X)); clear - Ck; lia|specialize (Ck (or_intror X)); clear - Ck; lia| |];
      rewrite X in Rk; cbn in Rk; clear - Rk; lia. }
  destruct Nu as (U1 & U2 & U3 & U4).
  rewrite Mn in Bh. set (tb := takes_block (name n)) in *. set (dd := if tb then 1 else 0).
  assert (Su : stopper BARE_CALL_ARG dd u).
  { split; [exact Ku|]. split; [|intros X; destruct (f_do _ _ _ _ _ _ K X) as [[Y _]|Y]; [exfalso; apply Y; reflexivity|]; rewrite Bh in Y; unfold dd; rewrite Y; discriminate]. intros b. pose proof (level_mono (ty u) b false ltac:(discriminate)) as Lm. change BARE_CALL_ARG with 11. clear - Lm Rk. lia. }
  (* from the name on *)
  assert (Core : forall k s lhs call a1, reach m p ia k s lhs (PState a1 (body' ++ w) (p :: ps) (0 :: d) l1 f) ->
    plain lhs = true -> is_callable lhs = true -> match lhs with N_Identifier _ lvar => lvar | _ => false end = false ->
    (forall s, to_node_with_args lhs s = POk call s) -> can_accept_a_block call = tb -> (forall vs, can_accept_a_block (add_args vs call) = tb) ->
    (length body' <= m)%nat ->
    exists vs, arg_nodes l1 ys pr vs /\ reach m p ia (S k) s (add_args vs call) (PState (rev body ++ a1) (u :: w) (p :: ps) (0 :: d) (after l e0) f)).
  { intros k s lhs call a1 R Pl Cl Il Hn Cb Cbs Hm'.
    destruct (args_ok m IH IH0 true T_RParen u ys pr call w a1 (p :: ps) dd d l1 f eq_refl eq_refl U1 U3 U2 U4 Su Eu Fy Fp
      Hm' ltac:(rewrite Ny; discriminate)) as (vs & w1 & Av & Ew & V).
    fold body' in Ew, V. rewrite Ty' in Ew. apply app_inj_tail in Ew as [Ew _]. subst w1.
    exists vs. split; [exact Av|].
    assert (Hh : exists t0 w0, body' ++ w = t0 :: w0 /\ begins_argument t0 || is_a T_SymbolKey t0 = true).
    { rewrite Ty'. destruct body as [|t0 w0]; [contradiction|].
      cbn [hd] in Hb. eexists; eexists; split; [reflexivity|exact Hb]. }
    destruct Hh as (t0 & w0 & Eh & Hb'). rewrite Eh in R, V. rewrite Af'.
    destruct (first_arg E F t0 (hd no_token w0) lhs p Hb' Cl Il) as (P1 & P2 & P3 & P4).
    refine (reach_round m p ia k s lhs a1 t0 w0 (p :: ps) (0 :: d) l1 f (parse_call_expression_without_parens E F) _ _ _ ps p (0 :: d) _ f R P3 _ P2 _).
    - unfold higher_precedence. rewrite (plain_key lhs Pl).
      assert (X : forall q, 15 <= q -> (p <? q) = true) by (clear - Lk; intros q Q; apply N.ltb_lt; lia).
      destruct P1 as [-> | [-> | ->]]; (match goal with |- context [?q =? ITER_BLOCK] => change (q =? ITER_BLOCK) with false; change (q =? ITER_CURLY) with false; cbv beta iota zeta; rewrite (X q) by (vm_compute; discriminate) end; reflexivity).
    - unfold parse_call_expression_without_parens. run1. rewrite (bind_ok _ _ _ _ _ (Hn _)). rewrite P4. unfold parse_call_args. cbv zeta. rewrite Cb. cbn [andb]. unfold dd in V. clearbody tb. destruct tb.
      + change (bind incr_depth ?h (PState ?x1 ?x2 ?x3 (0 :: d) ?x5 ?x6)) with (h tt (PState x1 x2 x3 (1 :: d) x5 x6)). cbv beta.
        etransitivity; [exact (V _)|]. rewrite Cbs. reflexivity.
      + etransitivity; [exact (V _)|]. rewrite Cbs. reflexivity. }
  assert (GoodC : forall t rn vs, stands rn (recv_meaning meaning l r) -> arg_nodes l1 ys pr vs ->
    good l e0 (match r with V_none => N_Call t rn (name n) vs | V_dot _ d => dot_node d rn (name n) vs end)).
  { intros t rn vs Srn [Sv Nv]. pose proof (no_pass vs Nv) as NP.
    pose proof (Me' l) as Mc. fold l1 in Mc. rewrite Mn in Mc.
    assert (Ic : integer (meaning l e0) = None).
    { rewrite Mc. apply integer_tag. destruct r as [|x t1]; cbn [call_tag]; [reflexivity|destruct (ttype_eqb (ty t1) T_SafeNavigation); reflexivity]. }
    constructor.
    - rewrite Mc. destruct r as [|x t1]; cbn [call_tag]; [apply stands_call; assumption|].
      unfold dot_node. destruct (ttype_eqb (ty t1) T_SafeNavigation); [apply stands_safe|apply stands_call]; assumption.
    - rewrite N0. destruct r as [|x t1]; [reflexivity|]. unfold dot_node. destruct (ttype_eqb (ty t1) T_SafeNavigation); reflexivity.
    - rewrite Ic. destruct r as [|x t1]; [reflexivity|]. unfold dot_node. destruct (ttype_eqb (ty t1) T_SafeNavigation); reflexivity.
    - destruct r as [|x t1]; [reflexivity|]. unfold dot_node. destruct (ttype_eqb (ty t1) T_SafeNavigation); reflexivity.
    - assert (X : shape e0 = shape (R_command r n [] e0)) by (clear - Kc; destruct e0; try discriminate Kc; reflexivity). rewrite X.
      destruct r as [|x t1]; [reflexivity|]. unfold dot_node. destruct (ttype_eqb (ty t1) T_SafeNavigation); reflexivity.
    - clear - Kc. destruct e0; try discriminate Kc; exact Logic.I.
    - clear - Kc. destruct e0; try discriminate Kc; exact Logic.I.
    - clear - Kc. destruct e0; try discriminate Kc; exact Logic.I.
    - clear - Kc. destruct e0; try discriminate Kc; exact Logic.I.
    - intros br Hbr. rewrite Bl, Mn in Hbr. apply andb_true_iff in Hbr as [Hbr Cb]. unfold takes_block in Cb. apply negb_true_iff in Hbr. subst br.
      destruct r as [|x t1]; [|unfold dot_node; destruct (ttype_eqb (ty t1) T_SafeNavigation)]; cbn [is_callable can_accept_a_block has_block_pass]; rewrite Cb, NP; repeat split; discriminate. }
  assert (Txt : forall z, z ++ (n :: body) ++ u :: w = z ++ n :: body' ++ w).
  { intros z. rewrite Ty'. cbn [app]. rewrite <- !app_assoc. reflexivity. }
  assert (Lb : length body' = S (length body)) by (rewrite Ty', app_length, Nat.add_comm; reflexivity).
  rewrite Tx in Hm |- *. clear Me' Bl Ft.
  destruct r as [|x t].
  - apply negb_true_iff in Hr. cbn [recv_text app length] in Hm.
    assert (R0 : reach m p ia 0 (PState a (n :: body' ++ w) (p :: ps) (0 :: d) l f) (N_Identifier n (bound l (name n)))
       (PState (n :: a) (body' ++ w) (p :: ps) (0 :: d) l f)).
    { apply (reach_null m p ia a (n :: body' ++ w) (p :: ps) (0 :: d) l f parse_identifier).
      - cbn [hd]. rewrite Tn; reflexivity.
      - apply run_identifier. exact Nn. }
    rewrite Hr in R0.
    destruct (Core 0%nat _ _ (N_Call n (N_Nil n) (name n) []) _ R0 eq_refl ltac:(cbn [is_callable]; rewrite Tn; reflexivity) eq_refl
      ltac:(intros s; unfold to_node_with_args, literal_string; rewrite Ln; reflexivity) eq_refl ltac:(intros vs; rewrite add_call; reflexivity)
      ltac:(clear - Hm Lb; lia)) as (vs & Av & R).
    rewrite add_call in R. cbn [app] in R. exists (N_Call n (N_Nil n) (name n) vs), 1%nat. split; [|split].
    + apply (GoodC n (N_Nil n) vs); [apply stands_nil|exact Av].
    + rewrite ?Tx. cbn [recv_text app length]. clear; lia.
    + cbn [recv_text]. pose proof (Txt []) as Tz. cbn [app] in Tz |- *. rewrite Tz. cbn [rev]. rewrite <- app_assoc. exact R.
  - apply andb_true_iff in Hr as [Hr Rx]. apply andb_true_iff in Hr as [Tt Fr]. apply N.leb_le in Rx.
    assert (T : ty t = T_Dot \/ ty t = T_SafeNavigation) by (apply orb_true_iff in Tt as [Tt|Tt]; apply is_a_ty in Tt; auto).
    cbn [recv_text] in Hm. rewrite !app_length in Hm. cbn [length] in Hm.
    assert (Kt : okf t = true /\ ty t <> T_DoKeyword /\ ty t <> T_Comma /\ ty t <> T_HashRocket /\ forall b, level (ty t) b <= 39)
      by (unfold okf; destruct T as [T|T]; rewrite T; repeat split; try discriminate; intros []; discriminate).
    destruct Kt as (Kt & T1 & T2 & T3 & T4).
    destruct (left_operand m e0 x t p ia u (n :: body' ++ w) a ps 0 d l f (Sr x t eq_refl) K Fr ltac:(clear - Hm; lia) Kt) as (v & j & G & Hj & R).
    { rewrite L0. eapply primary_left; eassumption. }
    { rewrite (rthr_17 _ Rx). apply T4. } { intros _; exact Sh0. } { exact T1. } { exact T2. } { exact T3. }
    { intros X. apply returns_right in X. unfold PRIMARY in Rx. clear - X Rx. lia. }
    assert (R1 := dot_round p ia j _ v t n (body' ++ w) (rev (text x) ++ a) ps (0 :: d) (after l x) f R (g_plain _ _ _ G) T
      ltac:(clear - Lk; destruct (is_numeric v); lia) ltac:(unfold method_token, is_a; rewrite Tn, Nn; reflexivity)).
    rewrite Mn in R1.
    destruct (Core (S j) _ _ (dot_node t v (name n) []) _ R1
      ltac:(unfold dot_node; destruct (ttype_eqb (ty t) T_SafeNavigation); reflexivity)
      ltac:(unfold dot_node; destruct (ttype_eqb (ty t) T_SafeNavigation); reflexivity)
      ltac:(unfold dot_node; destruct (ttype_eqb (ty t) T_SafeNavigation); reflexivity)
      ltac:(intros s; unfold dot_node; destruct (ttype_eqb (ty t) T_SafeNavigation); reflexivity)
      ltac:(unfold dot_node; destruct (ttype_eqb (ty t) T_SafeNavigation); reflexivity)
      ltac:(intros vs; unfold dot_node; destruct (ttype_eqb (ty t) T_SafeNavigation); [rewrite add_safe|rewrite add_call]; reflexivity)
      ltac:(clear - Hm Lb; lia)) as (vs & Av & R2).
    exists (dot_node t v (name n) vs), (S (S j)). split; [|split].
    + apply (GoodC t v vs); [exact (g_stands _ _ _ G)|exact Av].
    + rewrite ?Tx. cbn [recv_text]. rewrite !app_length. cbn [length]. clear - Hj Hbn. destruct body; [contradiction|]. cbn [length]. lia.
    + cbn [recv_text]. rewrite <- (app_assoc (text x ++ [t])), (Txt (text x ++ [t])), <- (app_assoc (text x) [t]).
      rewrite !rev_app_distr. cbn [rev app]. rewrite ?rev_app_distr. rewrite <- !app_assoc. cbn [app].
      unfold dot_node in *. destruct (ttype_eqb (ty t) T_SafeNavigation); [rewrite add_safe in R2|rewrite add_call in R2]; exact R2.
Qed.
Lemma as_argument_item l e : as_argument fits l e = true -> as_item fits l e = true.
Proof. intros H. destruct e; try exact H. discriminate H. Qed.
Lemma spine_command r n xs e : (forall x d, r = V_dot x d -> Spine m x) -> Spine m (R_command r n xs e).
Proof.
  apply (spine_listed (R_command r n xs e) r n (items_text text xs ++ text e) (fun u => xs ++ [(e, u)]) (fun _ => [])); try reflexivity.
  - intros u. unfold items_text, pairs_text. rewrite flat_map_app. cbn [flat_map fst snd]. rewrite !app_nil_r, app_assoc. reflexivity.
  - intros l u. cbn [after after_all]. unfold items_after. rewrite after_all_app. reflexivity.
  - intros l u. cbn [meaning listed_meaning]. unfold items_meaning. rewrite map_all_app. reflexivity.
  - intros l Hf. cbn [fits] in Hf. apply andb_true_iff in Hf as [Hf Hb]. apply andb_true_iff in Hf as [Hf Hs]. apply andb_true_iff in Hf as [Hf Fe].
    apply andb_true_iff in Hf as [Hf Fx]. apply andb_true_iff in Hf as [Hf Cx].
    apply andb_true_iff in Hf as [Hf Nn]. apply andb_true_iff in Hf as [Hf Tn]. apply negb_true_iff, orb_false_iff in Hs as [Hs1 Hs2].
    repeat split; try assumption.
    + rewrite Hb. reflexivity.
    + destruct (text_some e) as (? & ? & Ee). rewrite Ee. destruct (items_text text xs); discriminate.
    + apply (ended_snoc xs e u Cx).
    + unfold all_fit in *. rewrite map_all_app, forallb_app, Fx. cbn [map_all forallb fst andb]. unfold items_after in Fe. rewrite (as_argument_item _ _ Fe). reflexivity.
    + unfold items_shallow in *. rewrite existsb_app, Hs1. cbn [existsb fst]. rewrite Hs2. reflexivity.
Qed.
(** The last pair of a command. *)
Definition last_pair (k : option rb) (t : token) (e : rb) (u : token) : pair rb :=
  match k with Some k => P_rocket k t e u | None => P_key t e u end.
Lemma ended_pairs (xs : list (rb * token)) ps k t e u : forallb (fun x => is_a T_Comma (snd x)) xs = true -> forallb (fun x => is_a T_Comma (pair_end x)) ps = true ->
  ended u (map snd xs ++ map pair_end (ps ++ [last_pair k t e u])).
Proof.
  intros A B. assert (X : forall l, forallb (is_a T_Comma) l = true -> ended u (l ++ [u])).
  { induction l as [|x l IHl]; intros H; [reflexivity|]. cbn [forallb] in H. apply andb_true_iff in H as [H1 H2]. apply is_a_ty in H1. specialize (IHl H2).
    cbn [app]. destruct (l ++ [u]) eqn:El; [destruct l; discriminate El|]. split; assumption. }
  rewrite map_app, app_assoc. assert (Y : map pair_end [last_pair k t e u] = [u]) by (destruct k; reflexivity). rewrite Y. apply X.
  rewrite forallb_app. apply andb_true_iff. split.
  - rewrite <- A. clear. induction xs as [|y ys IHy]; [reflexivity|]. cbn [map forallb]. rewrite IHy. reflexivity.
  - rewrite <- B. clear. induction ps as [|y ys IHy]; [reflexivity|]. cbn [map forallb]. rewrite IHy. reflexivity.
Qed.
Lemma spine_keywords r n xs ps k t e : (forall x d, r = V_dot x d -> Spine m x) -> Spine m (R_keywords r n xs ps k t e).
Proof.
  apply (spine_listed (R_keywords r n xs ps k t e) r n (items_text text xs ++ pairs_text ps ++ match k with Some k => text k | None => [] end ++ t :: text e)
    (fun u => xs) (fun u => ps ++ [last_pair k t e u])); try reflexivity.
  - intros u. unfold pairs_text. rewrite flat_map_app. cbn [flat_map].
    destruct k as [k|]; cbn [last_pair pair_text app]; rewrite <- !app_assoc; cbn [app]; rewrite ?app_nil_r, <- ?app_assoc; cbn [app]; reflexivity.
  - intros l u. cbn [after]. rewrite after_all_app. destruct k; reflexivity.
  - intros l u. cbn [meaning]. unfold listed_meaning. destruct (ps ++ [last_pair k t e u]) eqn:Ep; [destruct ps; discriminate Ep|]. rewrite <- Ep. clear Ep.
    unfold pairs_meaning. rewrite map_all_app, concat_app. cbn [map_all concat]. rewrite app_nil_r. destruct k; reflexivity.
  - intros l Hf. cbn [fits] in Hf. cbv zeta in Hf. apply andb_true_iff in Hf as [Hf Hb]. apply andb_true_iff in Hf as [Hf Hs]. apply andb_true_iff in Hf as [Hf Fe].
    apply andb_true_iff in Hf as [Hf Fp]. apply andb_true_iff in Hf as [Hf Fx]. apply andb_true_iff in Hf as [Hf Cp]. apply andb_true_iff in Hf as [Hf Cx].
    apply andb_true_iff in Hf as [Hf Nn]. apply andb_true_iff in Hf as [Hf Tn]. apply negb_true_iff in Hs. apply orb_false_iff in Hs as [Hs Hs3]. apply orb_false_iff in Hs as [Hs1 Hs2].
    assert (Fl : pair_fits after (as_argument fits) (as_operand fits) (after_all (pair_after after) (items_after after (recv_after after l r) xs) ps) (last_pair k t e n) = true /\
      pair_shallow shallow (last_pair k t e n) = false).
    { destruct k as [k|]; cbn [last_pair pair_fits pair_shallow].
      - apply andb_true_iff in Fe as [Fe Sk]. apply negb_true_iff in Sk. rewrite Sk, Hs3. split; [exact Fe|reflexivity].
      - split; [exact Fe|exact Hs3]. }
    destruct Fl as [Fl Sl].
    split; [exact Hf|]. split; [exact Tn|]. split; [exact Nn|]. split; [split|].
    + fold (pairs_text ps) in Hb. destruct (items_text text xs); [|exact Hb]. destruct (pairs_text ps); [|exact Hb]. destruct k as [k|]; [|exact Hb].
      destruct (text k); exact Hb.
    + intros X. apply app_eq_nil in X as [_ X]. apply app_eq_nil in X as [_ X]. apply app_eq_nil in X as [_ X]. discriminate X.
    + intros u. split; [apply ended_pairs; assumption|]. split; [exact Fx|]. split.
      * unfold pairs_fit in *. rewrite map_all_app, forallb_app, Fp. cbn [map_all forallb andb]. destruct k; cbn [last_pair pair_fits] in *; rewrite Fl; reflexivity.
      * rewrite Hs1, existsb_app, Hs2. cbn [existsb orb]. destruct k; cbn [last_pair pair_shallow] in *; rewrite Sl; reflexivity.
Qed.

(** ** [yield] and [super] *)
Lemma spine_keyword k A : Spine m (R_keyword k A).
Proof.
  intros p ia u w a ps d0 d l f Hm K. pose proof (f_fits _ _ _ _ _ _ K) as Hf. pose proof (f_left _ _ _ _ _ _ K) as Lk.
  pose proof (f_tok _ _ _ _ _ _ K) as Ku. cbn [fits] in Hf. apply andb_true_iff in Hf as [Tk Fa].
  pose proof (f_shallow _ _ _ _ _ _ K) as Sk. cbn [shallow] in Sk. cbn [left] in Lk. change (lthr PRIMARY) with 36 in Lk.
  assert (T : ty k = T_YieldKeyword \/ ty k = T_SuperKeyword) by (apply orb_true_iff in Tk as [Tk|Tk]; apply is_a_ty in Tk; auto).
  cbn [text length] in Hm.
  set (b := match A with A_none => false | _ => true end).
  set (v0 := fun vs => if ttype_eqb (ty k) T_YieldKeyword then N_Yield k vs else N_Super k vs b).
  assert (Hd : ttype_eqb (ty (hd no_token (args_text text A ++ u :: w))) T_LParen = b).
  { destruct A as [|o c|o xs pr|o xs pr t e c]; cbn [args_text app hd]; [apply okf_not; [reflexivity|exact Ku]| | |]; cbn [args_fit] in Fa;
      repeat (match goal with H : _ && _ = true |- _ => apply andb_true_iff in H as [? ?] end); assumption. }
  assert (R0 : reach m p ia 0 (PState a (k :: args_text text A ++ u :: w) (p :: ps) (d0 :: d) l f) (v0 []) (PState (k :: a) (args_text text A ++ u :: w) (p :: ps) (d0 :: d) l f)).
  { unfold v0. destruct T as [T|T]; rewrite T.
    - apply (reach_null m p ia a (k :: args_text text A ++ u :: w) (p :: ps) (d0 :: d) l f parse_yield); [cbn [hd]; rewrite T; reflexivity|reflexivity].
    - apply (reach_null m p ia a (k :: args_text text A ++ u :: w) (p :: ps) (d0 :: d) l f parse_super); [cbn [hd]; rewrite T; reflexivity|].
      unfold parse_super. run1. run1.
      change (bind (cur_is T_LParen) ?h (PState ?x1 ?x2 ?x3 ?x4 ?x5 ?x6)) with (h (ttype_eqb (ty (hd no_token x2)) T_LParen) (PState x1 x2 x3 x4 x5 x6)). cbv beta.
      rewrite Hd. reflexivity. }
  assert (Gd : forall vs, Forall2 stands vs (args_meaning after meaning l A) -> (passes A = false -> forallb nopass vs = true) -> good l (R_keyword k A) (v0 vs)).
  { intros vs Sv Nv. unfold v0.
    destruct T as [T|T]; rewrite T; change (ttype_eqb T_YieldKeyword T_YieldKeyword) with true; change (ttype_eqb T_SuperKeyword T_YieldKeyword) with false; cbv iota.
    - constructor; try exact I; try reflexivity; cbn [meaning]; rewrite ?T; change (ttype_eqb T_YieldKeyword T_YieldKeyword) with true; cbv iota.
      + apply stands_yield. exact Sv.
      + symmetry. apply integer_tag. reflexivity.
      + intros br Hb. cbn [blockable] in Hb. apply andb_true_iff in Hb as [Hb _]. apply is_a_ty in Hb. congruence.
    - constructor; try exact I; try reflexivity; cbn [meaning]; rewrite ?T; change (ttype_eqb T_SuperKeyword T_YieldKeyword) with false; cbv iota.
      + unfold b. destruct A as [|o c|o xs pr|o xs pr t e c].
        * inversion Sv. apply stands_zsuper.
        * apply stands_super; [exact Sv|reflexivity].
        * apply stands_super; [exact Sv|reflexivity].
        * apply stands_super; [exact Sv|reflexivity].
      + symmetry. destruct A; apply integer_tag; reflexivity.
      + intros br Hb. cbn [blockable] in Hb. apply andb_true_iff in Hb as [_ Hp]. apply negb_true_iff in Hp. pose proof (no_pass vs (Nv Hp)) as NP.
        cbn [is_callable can_accept_a_block has_block_pass]. rewrite NP. repeat split. }
  assert (Hc : A = A_none \/ A <> A_none) by (destruct A; [left; reflexivity|right; discriminate..]). destruct Hc as [Hc|Hc].
  - exists (v0 []), 0%nat. rewrite Hc in *. split; [apply Gd; [constructor|reflexivity]|]. split; [apply Nat.le_0_l|exact R0].
  - destruct (parens_round p ia 0 _ _ (v0 []) A u w (k :: a) ps d0 d l f R0
      ltac:(unfold v0; destruct (ttype_eqb (ty k) T_YieldKeyword); reflexivity) ltac:(clear - Lk; lia) Fa Hc ltac:(clear - Hm; lia)
      ltac:(intros X; apply Sk; exact X)
      ltac:(intros s; unfold v0; destruct (ttype_eqb (ty k) T_YieldKeyword); reflexivity)) as (vs & Sv & Nv & _ & R).
    exists (v0 vs), 1%nat. split; [apply Gd; assumption|]. split; [cbn [text length]; lia|].
    assert (X : add_args vs (v0 []) = v0 vs) by (unfold v0; destruct (ttype_eqb (ty k) T_YieldKeyword); [rewrite add_yield|rewrite add_super]; reflexivity).
    rewrite X in R. cbn [text app after rev]. rewrite <- app_assoc. exact R.
Qed.
Lemma spine_yield k xs e : Spine m (R_yield k xs e).
Proof.
  intros p ia u w a ps d0 d l f Hm K. pose proof (f_fits _ _ _ _ _ _ K) as Hf. pose proof (f_left _ _ _ _ _ _ K) as Lk.
  pose proof (f_right _ _ _ _ _ _ K) as Rk. pose proof (f_comma _ _ _ _ _ _ K) as Ck. pose proof (f_tok _ _ _ _ _ _ K) as Ku.
  destruct (f_shallow _ _ _ _ _ _ K eq_refl) as [Zd Zi]. subst d0.
  cbn [fits] in Hf. apply andb_true_iff in Hf as [Hf Hb]. apply andb_true_iff in Hf as [Hf Hs]. apply andb_true_iff in Hf as [Hf Fe].
  apply andb_true_iff in Hf as [Hf Fx]. apply andb_true_iff in Hf as [Tk Cx]. apply negb_true_iff, orb_false_iff in Hs as [Hs1 Hs2].
  assert (T : ty k = T_YieldKeyword \/ ty k = T_SuperKeyword) by (apply orb_true_iff in Tk as [Tk|Tk]; apply is_a_ty in Tk; auto).
  cbn [left] in Lk. cbn [right number] in Rk. cbn [right] in Ck. change (lthr COMMAND) with 15 in Lk. change (rthr COMMAND) with 7 in Rk.
  assert (Nu : ty u <> T_Comma /\ ty u <> T_HashRocket /\ ty u <> T_StarStar /\ ty u <> T_Ampersand).
  { unfold COMMAND in Ck. repeat split; intros X; [specialize (Ck (or_introl X)); clear - Ck; lia|specialize (Ck (or_intror X)); clear - Ck; lia| |];
      rewrite X in Rk; cbn in Rk; clear - Rk; lia. }
  destruct Nu as (U1 & U2 & U3 & U4).
  set (tb := ttype_eqb (ty k) T_SuperKeyword). set (dd := if tb then 1 else 0).
  assert (Su : stopper BARE_CALL_ARG dd u).
  { split; [exact Ku|]. split; [|intros X; destruct (f_do _ _ _ _ _ _ K X) as [[Y _]|Y]; [exfalso; apply Y; reflexivity|discriminate Y]].
    intros b. pose proof (level_mono (ty u) b false ltac:(discriminate)) as Lm. change BARE_CALL_ARG with 11. clear - Lm Rk. lia. }
  set (body := items_text text xs ++ text e) in *.
  assert (Eb : items_text text (xs ++ [(e, u)]) ++ pairs_text [] = body ++ [u]).
  { unfold body, items_text, pairs_text. rewrite flat_map_app. cbn [flat_map fst snd]. rewrite !app_nil_r, app_assoc. reflexivity. }
  assert (Bn : body <> []) by (unfold body; destruct (text_some e) as (? & ? & Ee); rewrite Ee; destruct (items_text text xs); discriminate).
  cbn [text length] in Hm. fold body in Hm.
  set (v0 := fun vs => if ttype_eqb (ty k) T_YieldKeyword then N_Yield k vs else N_Super k vs false).
  destruct (args_ok m IH IH0 true T_RParen u (xs ++ [(e, u)]) [] (v0 []) w (k :: a) (p :: ps) dd d l f eq_refl eq_refl U1 U3 U2 U4 Su (ended_snoc xs e u Cx)) as (vs & w1 & [Sv Nv] & Ew & V).
  { unfold all_fit in *. rewrite map_all_app, forallb_app, Fx. cbn [map_all forallb fst andb]. unfold items_after in Fe. rewrite (as_argument_item _ _ Fe). reflexivity. }
  { reflexivity. }
  { rewrite Eb, app_length. cbn [length]. clear - Hm. lia. }
  { unfold items_shallow in *. rewrite existsb_app, Hs1. cbn [existsb fst]. rewrite Hs2. discriminate. }
  rewrite Eb in Ew, V. apply app_inj_tail in Ew as [Ew _]. subst w1.
  assert (Hbd : items_text text xs ++ text e = body) by reflexivity. clearbody body.
  destruct body as [|t0 w0]; [contradiction|]. cbn [hd] in Hb.
  assert (Tl : ttype_eqb (ty t0) T_LParen = false) by (clear - Hb; unfold begins_argument, is_a in Hb; destruct (ty t0); try reflexivity; discriminate Hb).
  assert (R0 : reach m p ia 0 (PState a (k :: t0 :: w0 ++ u :: w) (p :: ps) (0 :: d) l f) (v0 []) (PState (k :: a) (t0 :: w0 ++ u :: w) (p :: ps) (0 :: d) l f)).
  { unfold v0. destruct T as [T|T]; rewrite T.
    - apply (reach_null m p ia a (k :: t0 :: w0 ++ u :: w) (p :: ps) (0 :: d) l f parse_yield); [cbn [hd]; rewrite T; reflexivity|reflexivity].
    - apply (reach_null m p ia a (k :: t0 :: w0 ++ u :: w) (p :: ps) (0 :: d) l f parse_super); [cbn [hd]; rewrite T; reflexivity|].
      unfold parse_super. run1. run1. run1. rewrite Tl. reflexivity. }
  assert (Kv : plain (v0 []) = true /\ is_callable (v0 []) = true /\ match v0 [] with N_Identifier _ lvar => lvar | _ => false end = false /\
    (forall s, to_node_with_args (v0 []) s = POk (v0 []) s) /\ can_accept_a_block (v0 []) = tb /\ (forall zs, add_args zs (v0 []) = v0 zs) /\ (forall zs, can_accept_a_block (v0 zs) = tb)).
  { unfold v0, tb. destruct T as [T|T]; rewrite T; repeat split; intros zs; try reflexivity; [exact (add_yield zs k [])|exact (add_super zs k [] false)]. }
  destruct Kv as (K1 & K2 & K3 & K4 & K5 & K6 & K7).
  exists (v0 vs), 1%nat. split; [|split; [cbn [text length]; clear; lia|]].
  - unfold listed_meaning, items_meaning in Sv. rewrite map_all_app in Sv. cbn [map_all fst] in Sv.
    assert (Ne : vs <> []) by (intros ->; match type of Sv with Forall2 _ _ ?m => remember m as ms eqn:X end; destruct ms; [symmetry in X; apply app_eq_nil in X as [_ X]; discriminate X|inversion Sv]).
    apply good_ordinary; try reflexivity.
    + cbn [meaning]. unfold v0, items_meaning. destruct T as [T|T]; rewrite T; [apply stands_yield; exact Sv|].
      apply stands_super; [exact Sv|intros X; contradiction].
    + unfold v0. destruct T as [T|T]; rewrite T; reflexivity.
    + unfold v0. cbn [meaning]. destruct T as [T|T]; rewrite T; symmetry; apply integer_tag; reflexivity.
    + unfold v0. destruct T as [T|T]; rewrite T; reflexivity.
    + unfold v0. destruct T as [T|T]; rewrite T; reflexivity.
  - destruct (first_arg E F t0 (hd no_token (w0 ++ u :: w)) (v0 []) p ltac:(rewrite Hb; reflexivity) K2 K3) as (P1 & P2 & P3 & P4).
    assert (Ra : reach m p ia 1 (PState a (k :: t0 :: w0 ++ u :: w) (p :: ps) (0 :: d) l f) (v0 vs)
       (PState (rev (t0 :: w0) ++ k :: a) (u :: w) (p :: ps) (0 :: d) (after (items_after after l xs) e) f)).
    { refine (reach_round m p ia 0 _ _ (k :: a) t0 (w0 ++ u :: w) (p :: ps) (0 :: d) l f (parse_call_expression_without_parens E F) _ _ _ ps p (0 :: d) _ f R0 P3 _ P2 _).
      - unfold higher_precedence. rewrite (plain_key _ K1).
        assert (X : forall q, 15 <= q -> (p <? q) = true) by (clear - Lk; intros q Q; apply N.ltb_lt; lia).
        destruct P1 as [-> | [-> | ->]]; (match goal with |- context [?q =? ITER_BLOCK] => change (q =? ITER_BLOCK) with false; change (q =? ITER_CURLY) with false; cbv beta iota zeta; rewrite (X q) by (vm_compute; discriminate) end; reflexivity).
      - unfold parse_call_expression_without_parens. run1. rewrite (bind_ok _ _ _ _ _ (K4 _)). rewrite P4. unfold parse_call_args. cbv zeta. rewrite K5. cbn [andb].
        rewrite <- app_assoc in V. cbn [app] in V. unfold items_after in V. rewrite after_all_app in V. cbn [after_all fst] in V.
        unfold dd in V. clearbody tb. destruct tb.
        + change (bind incr_depth ?h (PState ?x1 ?x2 ?x3 (0 :: d) ?x5 ?x6)) with (h tt (PState x1 x2 x3 (1 :: d) x5 x6)). cbv beta.
          etransitivity; [exact (V _)|]. rewrite K6, K7. reflexivity.
        + etransitivity; [exact (V _)|]. rewrite K6, K7. reflexivity. }
    cbn [text after]. rewrite Hbd. cbn [rev app] in Ra |- *. rewrite <- app_assoc in Ra |- *. rewrite <- app_assoc. exact Ra.
Qed.
End Calls.

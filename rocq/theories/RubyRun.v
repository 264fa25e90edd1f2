(** * RubyRun: expressions, statements and bodies

    From the rounds of [parse_expression] to the whole of it, and from one statement to
    the bodies the parser knows.  No code is modelled here. *)
From Coq Require Import Strings.String NArith ZArith Bool List Lia.
From Verif Require Import Base Token Node ParserBase ParserModel Sexp SpecRuby RubyTransform RubyNodes RubyBase.
Import ListNotations.
Open Scope N_scope.
Open Scope list_scope.

Ltac bools := repeat match goal with
  | H : _ && _ = true |- _ => apply andb_true_iff in H as [? ?]
  | H : is_a ?x ?t = true |- _ => apply is_a_ty in H
  | H : negb _ = true |- _ => apply negb_true_iff in H
  | H : (_ <=? _) = true |- _ => apply N.leb_le in H
  | H : (_ <? _) = true |- _ => apply N.ltb_lt in H
  end.

(** ** The first token of an expression *)
Definition starts (t : ttype) : bool :=
  is_leaf t ||
  match t with
  | T_LParen | T_Not | T_NotKeyword | T_Tilde | T_Plus | T_Minus | T_LBracket | T_LBracketRBracket | T_LCurlyBrace
  | T_ConstantResolution | T_IfKeyword | T_UnlessKeyword | T_WhileKeyword | T_UntilKeyword | T_CaseKeyword | T_BeginKeyword | T_ForKeyword
  | T_DefKeyword | T_ClassKeyword | T_ModuleKeyword | T_ReturnKeyword | T_BreakKeyword | T_NextKeyword
  | T_YieldKeyword | T_SuperKeyword | T_DefinedKeyword | T_Arrow | T_InterpolatedStringBegin | T_InterpolatedSymbolBegin
  | T_InterpolatedShellBegin | T_RedoKeyword | T_RetryKeyword | T_AliasKeyword | T_UndefKeyword => true
  | _ => false
  end.
Lemma starts_head0 n : forall e l, (length (text e) <= n)%nat -> fits l e = true -> starts (ty (head e)) = true.
Proof.
  induction n as [|n IH]; intros e l Hn H; [pose proof (text_pos e); lia|].
  assert (L : forall x y, text e = text x ++ y -> y <> [] -> forall l, fits l x = true -> starts (ty (head e)) = true).
  { intros x y E Hy l' Hx. unfold head. rewrite E, hd_text. eapply IH; [|exact Hx].
    rewrite E, app_length in Hn. destruct y; [congruence|]. cbn in Hn. lia. }
  destruct e; cbn [fits] in H; bools;
  try (unfold head; cbn [text hd]; match goal with H : ty ?t = _ |- context [ty ?t] => rewrite H end; reflexivity);
  try (match goal with H : fits ?l ?x = true |- _ => eapply (L x); [reflexivity|discriminate|exact H] end).
  - unfold starts, head. cbn [text hd]. match goal with H : is_leaf _ = true |- _ => rewrite H end. reflexivity.
  - unfold head. cbn [text hd]. destruct (ty t); try discriminate; reflexivity.
  - unfold head. cbn [text hd]. unfold starts, is_leaf. match goal with H : is_variable (ty _) = true |- _ => rewrite H end. reflexivity.
  - unfold head. cbn [text hd]. unfold starts, is_leaf. match goal with H : is_variable (ty _) = true |- _ => rewrite H end. reflexivity.
  - destruct r as [|r d]; bools.
    + unfold head. cbn [text recv_text app hd]. apply orb_true_iff in H as [H|H]; apply is_a_ty in H; rewrite H; reflexivity.
    + eapply (L r); [cbn [text recv_text]; rewrite <- app_assoc; reflexivity|discriminate|eassumption].
  - destruct r as [|r d]; bools.
    + unfold head. cbn [text recv_text app hd]. match goal with H : ty n0 = _ |- _ => rewrite H end. reflexivity.
    + eapply (L r); [cbn [text recv_text]; rewrite <- app_assoc; reflexivity|discriminate|eassumption].
  - unfold head. cbn [text hd]. apply orb_true_iff in H as [H|H]; apply is_a_ty in H; rewrite H; reflexivity.
  - unfold head. cbn [text hd]. destruct v as [e|]; bools; match goal with H : _ || _ = true |- _ => rename H into X end;
    repeat (apply orb_true_iff in X as [X|X]); apply is_a_ty in X; rewrite X; reflexivity.
  - unfold head. cbn [text hd]. repeat (apply orb_true_iff in H as [H|H]); apply is_a_ty in H; rewrite H; reflexivity.
  - unfold head. cbn [text hd]. destruct (ty o); try discriminate; reflexivity.
  - discriminate H.
  - destruct r as [|r d]; bools.
    + unfold head. cbn [text recv_text app hd]. match goal with H : ty n0 = _ |- _ => rewrite H end. reflexivity.
    + eapply (L r); [cbn [text recv_text]; rewrite <- app_assoc; reflexivity|discriminate|eassumption].
  - unfold head. cbn [text hd]. repeat (apply orb_true_iff in H as [H|H]); apply is_a_ty in H; rewrite H; reflexivity.
Qed.
Lemma starts_head l e : fits l e = true -> starts (ty (head e)) = true.
Proof. apply (starts_head0 _ e l (le_n _)). Qed.
Lemma starts_not x t : starts x = false -> starts t = true -> ttype_eqb t x = false.
Proof. intros H K. apply eqb_diff. intros ->. congruence. Qed.
Lemma starts_null E F t : starts t = true -> exists g, null_denotation E F t = Some g.
Proof. destruct t; (discriminate || (eexists; reflexivity)). Qed.
Lemma starts_line t : starts t = true -> is_end_of_line t = false.
Proof. destruct t; (reflexivity || discriminate). Qed.

(** ** Separators *)
Lemma run_skip {A} s : forall (k : unit -> M A) a r ps d l f,
  forallb separator s = true -> is_end_of_line (ty (hd no_token r)) = false ->
  bind skip_newlines k (PState a (s ++ r) ps d l f) = k tt (PState (rev s ++ a) r ps d l f).
Proof.
  intros k a r ps d l f Hs Hr.
  assert (E : forall s a, forallb separator s = true -> skip_eol a (s ++ r) = (rev s ++ a, r)).
  { clear s a Hs. induction s as [|t s IH]; intros a H.
    - cbn [app rev]. destruct r as [|t r]; [reflexivity|]. cbn [hd] in Hr. cbn [skip_eol]. rewrite Hr. reflexivity.
    - cbn [forallb] in H. apply andb_true_iff in H as [H1 H2]. cbn [app skip_eol].
      assert (X : is_end_of_line (ty t) = true).
      { unfold separator, is_a in H1. apply orb_true_iff in H1 as [H1|H1]; apply eqb_eq in H1; rewrite H1; reflexivity. }
      rewrite X, IH by exact H2. cbn [rev]. rewrite <- app_assoc. reflexivity. }
  unfold bind, skip_newlines. cbn [p_prev p_rest p_precs p_depth p_locals p_file]. rewrite E by exact Hs. reflexivity.
Qed.
Lemma run_no_skip {A} (k : unit -> M A) a r ps d l f : is_end_of_line (ty (hd no_token r)) = false ->
  bind skip_newlines k (PState a r ps d l f) = k tt (PState a r ps d l f).
Proof. apply (run_skip []). reflexivity. Qed.
Lemma separator_end t : separator t = true -> is_end_of_line (ty t) = true /\ is_end_of_expression (ty t) = true.
Proof. unfold separator, is_a. intros H. apply orb_true_iff in H as [H|H]; apply eqb_eq in H; rewrite H; split; reflexivity. Qed.
(** Going on to the next statement. *)
Lemma run_next {A} x s (k : unit -> M A) a r ps d l f :
  forallb separator (x :: s) = true -> is_end_of_line (ty (hd no_token r)) = false ->
  bind next_expression k (PState a (x :: s ++ r) ps d l f) = k tt (PState (rev (x :: s) ++ a) r ps d l f).
Proof.
  intros Hs Hr. unfold next_expression. rewrite bind_assoc. run1.
  assert (X : is_end_of_expression (ty x) = true).
  { cbn [forallb] in Hs. apply andb_true_iff in Hs as [Hs _]. apply separator_end in Hs. tauto. }
  rewrite X. cbn [negb]. apply (run_skip (x :: s)); assumption.
Qed.
Lemma run_next_end {A} (k : unit -> M A) a c r ps d l f :
  is_end_of_expression (ty c) = true -> is_end_of_line (ty c) = false ->
  bind next_expression k (PState a (c :: r) ps d l f) = k tt (PState a (c :: r) ps d l f).
Proof.
  intros H K. unfold next_expression. rewrite bind_assoc. run1. rewrite H. cbn [negb]. apply run_no_skip. exact K.
Qed.

(** The tokens that [validate_current_token] lets pass. *)
Definition sound (t : ttype) : bool :=
  starts t || follows t || match t with T_RescueKeyword | T_EnsureKeyword => true | _ => false end.
Lemma run_validate {A} (k : unit -> M A) a r ps d l f : sound (ty (hd no_token r)) = true ->
  bind validate_current_token k (PState a r ps d l f) = k tt (PState a r ps d l f).
Proof.
  unfold validate_current_token. intros H. rewrite bind_assoc.
  change (bind cur ?h (PState a r ps d l f)) with (h (hd no_token r) (PState a r ps d l f)). cbv beta.
  destruct (ty (hd no_token r)); (reflexivity || discriminate).
Qed.

(** ** Rounds *)
Definition reach (m : nat) (p : N) (ia : iter_allow) (k : nat) (s : pstate) (v : node) (s' : pstate) : Prop :=
  forall j, rounds m p ia (k + j) s = mloop j (expression_step (parse_expression m) (m + m + 2) p ia) v s'.
Lemma rounds_head m p ia j a r ps d l f g :
  null_denotation (parse_expression m) (m + m + 2) (ty (hd no_token r)) = Some g ->
  rounds m p ia j (PState a r ps d l f) =
  bind g (fun lhs => mloop j (expression_step (parse_expression m) (m + m + 2) p ia) lhs) (PState a r ps d l f).
Proof.
  intros H. unfold rounds.
  change (bind cty ?h (PState a r ps d l f)) with (h (ty (hd no_token r)) (PState a r ps d l f)). cbv beta. rewrite H.
  reflexivity.
Qed.
Lemma reach_null m p ia a r ps d l f g v s' :
  null_denotation (parse_expression m) (m + m + 2) (ty (hd no_token r)) = Some g ->
  g (PState a r ps d l f) = POk v s' ->
  reach m p ia 0 (PState a r ps d l f) v s'.
Proof.
  intros H K j. unfold rounds.
  change (bind cty ?h (PState a r ps d l f)) with (h (ty (hd no_token r)) (PState a r ps d l f)). cbv beta. rewrite H.
  rewrite (bind_ok _ _ _ _ _ K). reflexivity.
Qed.
Lemma reach_round m p ia k s v a t r ps d l f g v' a' r' ps' q d' l' f' :
  reach m p ia k s v (PState a (t :: r) ps d l f) ->
  is_valid (ty t) = true -> higher_precedence t v p ia (PState a (t :: r) ps d l f) = POk true (PState a (t :: r) ps d l f) ->
  left_denotation (parse_expression m) (m + m + 2) t (hd no_token r) v p = Some g ->
  g v (PState a (t :: r) ps d l f) = POk v' (PState a' r' (q :: ps') d' l' f') ->
  reach m p ia (S k) s v' (PState a' r' (p :: ps') d' l' f').
Proof.
  intros R V H L G j. cbn [Nat.add]. rewrite plus_n_Sm, R. apply loop_step.
  unfold expression_step. run1. rewrite V. cbn [negb].
  rewrite (bind_ok _ _ _ _ _ H). cbn [negb]. run1. rewrite L, (bind_ok _ _ _ _ _ G). run1. run1. reflexivity.
Qed.

Lemma plain_key v : plain v = true -> node_is_symbol_key v = false.
Proof. destruct v; (reflexivity || discriminate). Qed.
(** A token that binds tighter than [p] makes a round. *)
Lemma higher u v p ia s : okf u = true -> plain v = true -> ty u <> T_DoKeyword -> ty u <> T_LCurlyBrace ->
  p < level (ty u) (is_numeric v) -> higher_precedence u v p ia s = POk true s.
Proof.
  intros K P D C L. unfold higher_precedence. rewrite (plain_key v P), (precedence u v K D C).
  assert (X : (level (ty u) (is_numeric v) =? ITER_BLOCK) = false /\ (level (ty u) (is_numeric v) =? ITER_CURLY) = false).
  { destruct (ty u), (is_numeric v); split; reflexivity. }
  destruct X as [-> ->]. apply N.ltb_lt in L. rewrite L. reflexivity.
Qed.
Lemma stop u v p ia F E a r ps d0 d l f : okf u = true -> node_is_symbol_key v = false -> ty u <> T_LCurlyBrace ->
  (ty u = T_DoKeyword -> d0 <> 0) -> level (ty u) (is_numeric v) <= p ->
  expression_step E F p ia v (PState a (u :: r) ps (d0 :: d) l f) = POk (inr v) (PState a (u :: r) ps (d0 :: d) l f).
Proof.
  intros K P C D L. unfold expression_step. run1. rewrite (okf_valid u K). cbn [negb].
  assert (H : higher_precedence u v p ia (PState a (u :: r) ps (d0 :: d) l f) = POk false (PState a (u :: r) ps (d0 :: d) l f)).
  { destruct (ttype_eqb (ty u) T_DoKeyword) eqn:Eu.
    - apply eqb_eq in Eu. specialize (D Eu). unfold higher_precedence, get_precedence. rewrite P, Eu.
      cbn [N.eqb]. apply N.eqb_neq in D. destruct ia; try reflexivity. change (POk (d0 =? 0) (PState a (u :: r) ps (d0 :: d) l f) = POk false (PState a (u :: r) ps (d0 :: d) l f)).
      rewrite D. reflexivity.
    - assert (X : ty u <> T_DoKeyword) by (intros X; rewrite X in Eu; discriminate Eu).
      unfold higher_precedence. rewrite P, (precedence u v K X C).
      assert (Y : (level (ty u) (is_numeric v) =? ITER_BLOCK) = false /\ (level (ty u) (is_numeric v) =? ITER_CURLY) = false).
      { destruct (ty u), (is_numeric v); split; reflexivity. }
      destruct Y as [-> ->]. apply N.ltb_ge in L. rewrite L. reflexivity. }
  rewrite (bind_ok _ _ _ _ _ H). reflexivity.
Qed.

Lemma main_of_spine m : (forall e, Spine m e) -> Main (S m).
Proof.
  intros S e p ia u r a ps d0 d l f Hm F L D.
  destruct (S e p ia u r a ps d0 d l f ltac:(lia) F) as (v & k & G & K & R).
  exists v. split; [exact G|]. cbn [parse_expression]. unfold expression_body.
  pose proof (starts_head l e (f_fits _ _ _ _ _ _ F)) as St.
  rewrite run_no_skip by (rewrite hd_text; apply starts_line; exact St). run1.
  specialize (R (m + m + 2 - k)%nat). replace (k + (m + m + 2 - k))%nat with (m + m + 2)%nat in R by lia.
  assert (X : exists j, (m + m + 2 - k = Datatypes.S j)%nat) by (exists (m + m + 1 - k)%nat; lia).
  destruct X as (j & X). rewrite X in R.
  rewrite (loop_done j _ v _ v (PState (rev (text e) ++ a) (u :: r) (p :: ps) (d0 :: d) (after l e) f)) in R.
  2:{ apply stop; [exact (f_tok _ _ _ _ _ _ F)|exact (plain_key _ (g_plain _ _ _ G))| |intros Y; apply D; exact Y|rewrite (g_number _ _ _ G); exact L].
      intros Y. rewrite Y in L. cbn in L. pose proof (f_left _ _ _ _ _ _ F). clear - L H. thr. }
  destruct (starts_null (parse_expression m) (m + m + 2) _ St) as (g & Hg).
  rewrite (rounds_head m p ia _ a _ _ _ l f g) in R by (rewrite hd_text; exact Hg). revert R.
  intros R. run1. rewrite Hg. revert R. unfold bind.
  destruct (g (PState a (text e ++ u :: r) (p :: ps) (d0 :: d) l f)); try discriminate. intros R. rewrite R. reflexivity.
Qed.

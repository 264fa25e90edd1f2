(** * RubySet: assignments to attributes and elements, [defined?], lambdas and [class <<]

    [Spine] for these programs of SpecRuby.  No code is modelled here. *)
From Coq Require Import Strings.String NArith ZArith Bool List Lia.
From Verif Require Import Base Token Node ParserBase ParserModel Sexp SpecRuby RubyTransform RubyNodes RubyBase RubyRun RubyBody RubyExpr RubyOps RubyForms RubyArgs RubyCalls RubyBlock RubyCompound.
Import ListNotations.
Open Scope N_scope.
Open Scope list_scope.

(** ** What they are transformed to *)
(** A call as the target of an assignment. *)
Lemma set_call t r n a f v mr ma sv : stands r mr -> Forall2 stands a ma -> bare sv = v ->
  (forall c, c_assignment c = false -> f c = push sv c) ->
  forall c, c_assignment c = false -> exists c', c_assignment c' = false /\
    transform_assignment (N_Call t r n a) (transform (N_Call t r n a)) f c = TOk c' /\
    bare (c_sexp c') = sx "attrasgn" (mr :: SSym (n ++ s2l "=") :: ma ++ [v]).
Proof.
  intros R A Ev Kv [x y z w i] C. cbn in C. subst x. opens. eexists. split; [|split].
  2:{ unfold transform_assignment, tseq at 1. cbn [ntoken c_assignment]. rewrite tr_call. go2. reflexivity. }
  - reflexivity.
  - unfold c_sexp. cbn [c_line c_col c_comments c_items app]. rewrite sx_flat by reflexivity. cbn [map]. rewrite map_app. cbn [map bare]. congruence.
Qed.
Lemma set_safe t r n a f v mr ma sv : stands r mr -> Forall2 stands a ma -> bare sv = v ->
  (forall c, c_assignment c = false -> f c = push sv c) ->
  forall c, c_assignment c = false -> exists c', c_assignment c' = false /\
    transform_assignment (N_SafeCall t r n a) (transform (N_SafeCall t r n a)) f c = TOk c' /\
    bare (c_sexp c') = sx "safe_attrasgn" (mr :: SSym (n ++ s2l "=") :: ma ++ [v]).
Proof.
  intros R A Ev Kv [x y z w i] C. cbn in C. subst x. opens. eexists. split; [|split].
  2:{ unfold transform_assignment, tseq at 1. cbn [ntoken c_assignment]. rewrite tr_safe. go2. reflexivity. }
  - reflexivity.
  - unfold c_sexp. cbn [c_line c_col c_comments c_items app]. rewrite sx_flat by reflexivity. cbn [map]. rewrite map_app. cbn [map bare]. congruence.
Qed.
(** An attribute's node, and a call. *)
Lemma stands_set_call t q r n a v mr ma mv : stands r mr -> Forall2 stands a ma -> stands v mv ->
  stands (N_Assignment q (N_Call t r n a) v) (sx "attrasgn" (mr :: SSym (n ++ s2l "=") :: ma ++ [mv])).
Proof.
  intros R A (sv & Ev & Kv). destruct (set_call t r n a _ mv mr ma sv R A Ev Kv (new_creator q false) eq_refl) as (c & _ & Tc & Bc).
  eapply stands_intro; [discriminate|exists c; split; [rewrite tr_assign; exact Tc|reflexivity]|exact Bc].
Qed.
Lemma stands_set_safe t q r n a v mr ma mv : stands r mr -> Forall2 stands a ma -> stands v mv ->
  stands (N_Assignment q (N_SafeCall t r n a) v) (sx "safe_attrasgn" (mr :: SSym (n ++ s2l "=") :: ma ++ [mv])).
Proof.
  intros R A (sv & Ev & Kv). destruct (set_safe t r n a _ mv mr ma sv R A Ev Kv (new_creator q false) eq_refl) as (c & _ & Tc & Bc).
  eapply stands_intro; [discriminate|exists c; split; [rewrite tr_assign; exact Tc|reflexivity]|exact Bc].
Qed.
(** A target, with what it reads and what it is assigned to. *)
Lemma stands_op_logic q x v mx mw : stands x mx -> (forall u, x <> N_Nil u) ->
  (forall sv, (forall c, c_assignment c = false -> append_node v (transform v) c = push sv c) ->
   forall c, c_assignment c = false -> exists c', c_assignment c' = false /\
    transform_assignment x (transform x) (append_node v (transform v)) c = TOk c' /\ bare (c_sexp c') = mw (bare sv)) ->
  forall mv, stands v mv ->
  stands (N_OpAssignAnd q x v) (sx "op_asgn_and" [mx; mw mv]) /\ stands (N_OpAssignOr q x v) (sx "op_asgn_or" [mx; mw mv]).
Proof.
  intros (s & E & K) Nx W mv (sv & Ev & Kv). destruct (W sv Kv (new_creator q false) eq_refl) as (c1 & _ & T1 & B1). subst mv.
  split; (eapply stands_intro; [discriminate|eexists; split; [|reflexivity]|]).
  - rewrite tr_op_and. unfold tseq, set_type, new_creator. cbn [c_assignment c_line c_col c_comments c_items].
    rewrite K by reflexivity. cbn [push c_assignment c_line c_col c_comments c_items app]. unfold append_sub. cbn [c_assignment].
    rewrite T1. reflexivity.
  - unfold c_sexp at 1. cbn [push c_line c_col c_comments c_items app]. rewrite sx_flat by reflexivity. cbn [map]. congruence.
  - rewrite tr_op_or. unfold tseq, set_type, new_creator. cbn [c_assignment c_line c_col c_comments c_items].
    rewrite K by reflexivity. cbn [push c_assignment c_line c_col c_comments c_items app]. unfold append_sub. cbn [c_assignment].
    rewrite T1. reflexivity.
  - unfold c_sexp at 1. cbn [push c_line c_col c_comments c_items app]. rewrite sx_flat by reflexivity. cbn [map]. congruence.
Qed.
Lemma tr_accessor t op r n v a s : transform (N_OpAssignAccessor t op r n v a s) =
  if str_eqb n (s2l "[]=") then
    set_type "op_asgn1" >> append_node r (transform r) >>
    (match a with [] => append_nil | _ => append_sexp (set_type "arglist" >> append_all (appends a)) end) >>
    append_symbol op >> append_node v (transform v)
  else
    match a with
    | [] => set_type (if s then "safe_op_asgn2" else "op_asgn2")%string >> append_node r (transform r) >>
            append_symbol n >> append_symbol op >> append_node v (transform v)
    | _ => tcrash PAssert
    end.
Proof. intros. rewrite <- !each_map. destruct a; reflexivity. Qed.
Lemma stands_accessor t op r n v (s : bool) mr mv : stands r mr -> stands v mv -> str_eqb n (s2l "[]=") = false ->
  stands (N_OpAssignAccessor t op r n v [] s) (sx (if s then "safe_op_asgn2" else "op_asgn2") [mr; SSym n; SSym op; mv]).
Proof.
  intros R V Hn. opens. eapply stands_intro; [discriminate|eexists; split; [rewrite tr_accessor, Hn; go2; reflexivity|reflexivity]|].
  unfold c_sexp. cbn [c_line c_col c_comments c_items app]. destruct s; rewrite sx_flat by reflexivity; cbn [map bare]; congruence.
Qed.
Lemma stands_accessor1 t op r v a s mr ma mv : stands r mr -> Forall2 stands a ma -> a <> [] -> stands v mv ->
  stands (N_OpAssignAccessor t op r (s2l "[]=") v a s) (sx "op_asgn1" [mr; sx "arglist" ma; SSym op; mv]).
Proof.
  intros R A Ha V. opens.
  eapply stands_intro; [discriminate|eexists; split; [rewrite tr_accessor; change (str_eqb (s2l "[]=") (s2l "[]=")) with true; cbv iota|reflexivity]|].
  - destruct a as [|x a]; [congruence|]. go2. reflexivity.
  - unfold c_sexp. cbn [c_line c_col c_comments c_items app]. rewrite sx_flat by reflexivity. cbn [map]. rewrite sx_flat by reflexivity. cbn [bare]. congruence.
Qed.
Lemma tr_defined t v : transform (N_Defined t v) = (set_type "defined" >> append_node v (transform v)).
Proof. eqn. Qed.
Lemma stands_defined t v m : stands v m -> stands (N_Defined t v) (sx "defined" [m]).
Proof. stand2 tr_defined. Qed.
Lemma tr_sclass t v bt b : transform (N_Sclass t v (bt, b)) = (set_type "sclass" >> append_node v (transform v) >> append_all (appends b)).
Proof. eqn. Qed.
Lemma stands_sclass t v bt b m mb : stands v m -> Forall2 stands b mb -> stands (N_Sclass t v (bt, b)) (sx "sclass" (m :: mb)).
Proof. stand2 tr_sclass. Qed.
Lemma stands_lambda t h a : stands (N_StabbyProc t h a) (sx "lambda" []).
Proof. eapply stands_intro; [discriminate|eexists; split; reflexivity|reflexivity]. Qed.

(** ** Parsing them *)
Definition set_lhs (safe : bool) (t : token) (r : node) (n : str) (a : list node) : node :=
  if safe then N_SafeCall t r n a else N_Call t r n a.
Definition set_node (safe : bool) (q t : token) (r : node) (n : str) (a : list node) (v : node) : node :=
  let accessor op := N_OpAssignAccessor q (s2l op) r (n ++ s2l "=") v a safe in
  match ty q with
  | T_Equal => N_Assignment q (set_lhs safe t r n a) v
  | T_AmpersandAmpersandEqual =>
      if str_eqb n (s2l "[]") then accessor "&&"%string else N_OpAssignAnd q (set_lhs safe t r n a) v
  | T_PipePipeEqual =>
      if str_eqb n (s2l "[]") then accessor "||"%string else N_OpAssignOr q (set_lhs safe t r n a) v
  | x => accessor (operator x)
  end.
Lemma set_kind safe q t r n a v :
  is_numeric (set_node safe q t r n a v) = false /\ fixnum (set_node safe q t r n a v) = None /\
  plain (set_node safe q t r n a v) = true /\ n_shape (set_node safe q t r n a v) = 0.
Proof. unfold set_node. destruct (ty q); try (repeat split); destruct (str_eqb n (s2l "[]")); repeat split. Qed.

Lemma str_same a b : str_eqb a b = true -> a = b.
Proof.
  revert b. induction a as [|c a IH]; intros [|d b] H; try discriminate; [reflexivity|].
  cbn [str_eqb] in H. apply andb_prop in H. destruct H as [H1 H2]. apply N.eqb_eq in H1. f_equal; auto.
Qed.
Lemma not_element n : str_eqb n (s2l "[]") = false -> str_eqb (n ++ s2l "=") (s2l "[]=") = false.
Proof.
  intros H. destruct (str_eqb (n ++ s2l "=") (s2l "[]=")) eqn:X; [|reflexivity]. apply str_same in X.
  change (s2l "[]=") with (s2l "[]" ++ s2l "=") in X. apply app_inv_tail in X. rewrite X in H. discriminate H.
Qed.
Lemma set_attr_stands safe q t r n v mr mv : is_a T_Equal q || op_assign_type (ty q) = true -> str_eqb n (s2l "[]") = false ->
  stands r mr -> stands v mv -> stands (set_node safe q t r n [] v) (attr_assign safe mr n (ty q) mv).
Proof.
  intros Tq Nn R V. pose proof (not_element _ Nn) as Ne. unfold set_node, attr_assign. rewrite Nn.
  assert (A : stands (N_OpAssignAnd q (set_lhs safe t r n []) v)
      (sx "op_asgn_and" [sx (if safe then "safe_call" else "call") [mr; SSym n]; sx (if safe then "safe_attrasgn" else "attrasgn") [mr; SSym (n ++ s2l "="); mv]]) /\
    stands (N_OpAssignOr q (set_lhs safe t r n []) v)
      (sx "op_asgn_or" [sx (if safe then "safe_call" else "call") [mr; SSym n]; sx (if safe then "safe_attrasgn" else "attrasgn") [mr; SSym (n ++ s2l "="); mv]])).
  { destruct safe; unfold set_lhs.
    - apply (stands_op_logic q _ v _ (fun y => sx "safe_attrasgn" [mr; SSym (n ++ s2l "="); y])); [apply (stands_safe t r n [] mr []); [exact R|constructor]|discriminate| |exact V].
      intros sv Kv. apply (set_safe t r n [] _ _ mr [] sv R (Forall2_nil _) eq_refl Kv).
    - apply (stands_op_logic q _ v _ (fun y => sx "attrasgn" [mr; SSym (n ++ s2l "="); y])); [apply (stands_call t r n [] mr []); [exact R|constructor]|discriminate| |exact V].
      intros sv Kv. apply (set_call t r n [] _ _ mr [] sv R (Forall2_nil _) eq_refl Kv). }
  destruct A as [A1 A2].
  destruct (ty q); try exact A1; try exact A2; try (apply stands_accessor; assumption).
  destruct safe; [apply (stands_set_safe t q r n [] v mr [] mv)|apply (stands_set_call t q r n [] v mr [] mv)]; (assumption || constructor).
Qed.
Lemma set_element_stands q t r a v mr ma mv : stands r mr -> Forall2 stands a ma -> a <> [] -> stands v mv ->
  stands (set_node false q t r (s2l "[]") a v) (element_assign mr ma (ty q) mv).
Proof.
  intros R A Na V. unfold set_node, element_assign. change (str_eqb (s2l "[]") (s2l "[]")) with true. cbv iota zeta.
  destruct (ty q); try (apply stands_accessor1; assumption). apply (stands_set_call t q r (s2l "[]") a v mr ma mv); assumption.
Qed.
Lemma attr_integer safe r n q v : integer (attr_assign safe r n q v) = None.
Proof. unfold attr_assign. destruct safe, q; apply integer_tag; reflexivity. Qed.
Lemma element_integer r a q v : integer (element_assign r a q v) = None.
Proof. unfold element_assign. destruct q; apply integer_tag; reflexivity. Qed.

Section Set_.
Variable m : nat.
Hypothesis IH : Main m.
Hypothesis IH0 : Main (pred m).
Notation E := (parse_expression m).
Notation F := (m + m + 2)%nat.

Lemma set_round X e p ia u r a ps d0 d l l' f safe q t rn n args k s :
  reach m p ia k s (set_lhs safe t rn n args) (PState a (q :: text e ++ u :: r) (p :: ps) (d0 :: d) l' f) ->
  fit X p ia u d0 l -> is_a T_Equal q || op_assign_type (ty q) = true -> at_least ARGUMENT e = true -> fits l' e = true ->
  (length (text e) < m)%nat -> left X <= 3 -> right X = 3 -> number X = false -> block_head X = false ->
  (shallow e = true -> shallow X = true) -> assigns X = is_a T_Equal q || assigns e -> comma_safe X = negb (assigns e) ->
  exists v, good l' e v /\
    reach m p ia (S k) s (set_node safe q t rn n args v)
      (PState (rev (text e) ++ q :: a) (u :: r) (p :: ps) (d0 :: d) (after l' e) f).
Proof.
  intros R K Tq Ae Fe Me Lx Rx Nx Bx Sx As Cs.
  apply at_least_3 in Ae as (Le & Re & Ne).
  assert (Lp : p < 15). { pose proof (f_left _ _ _ _ _ _ K) as Lk. eapply N.lt_le_trans; [exact Lk|]. pose proof (lthr_mono _ _ Lx) as Y. exact Y. }
  assert (Lu : level (ty u) (number X) <= 7). { pose proof (f_right _ _ _ _ _ _ K) as Lk. rewrite Rx in Lk. exact Lk. }
  assert (Cm : ty u = T_Comma -> assigns e = false /\ (ty q = T_Equal -> listp p = true)).
  { intros H. destruct (f_list _ _ _ _ _ _ K H) as [A|[A B]].
    - rewrite As in A. apply orb_false_iff in A as [A B]. split; [exact B|]. intros Y. unfold is_a in A. rewrite Y in A. discriminate A.
    - rewrite Cs in B. apply negb_true_iff in B. split; [exact B|]. intros _. exact A. }
  assert (V : forall p', 7 <= p' -> p' < 15 -> exists v, good l' e v /\
    pexpr E p' (PState (q :: a) (text e ++ u :: r) (p :: ps) (d0 :: d) l' f) = POk v (PState (rev (text e) ++ q :: a) (u :: r) (p :: ps) (d0 :: d) (after l' e) f)).
  { intros p' P1 P2. apply (operand m IH X e p ia u r (q :: a) (p :: ps) d0 d l l' f p' K Fe Me).
    - apply lthr3 in Le. eapply N.lt_le_trans; [exact P2|exact Le].
    - eapply N.le_trans; [exact Lu|exact P1].
    - rewrite Nx. discriminate.
    - rewrite Rx. exact Re.
    - exact Sx.
    - intros H. apply Cm. exact H.
    - rewrite Ne. discriminate.
    - exact Bx. }
  assert (Pq : plain (set_lhs safe t rn n args) = true) by (destruct safe; reflexivity).
  destruct (ttype_eqb (ty q) T_Equal) eqn:Eq.
  - apply eqb_eq in Eq. destruct (V ASSIGNMENT_RHS) as (v & G & Vv); [discriminate|reflexivity|]. exists v. split; [exact G|].
    replace (set_node safe q t rn n args v) with (N_Assignment q (set_lhs safe t rn n args) v) by (unfold set_node; rewrite Eq; reflexivity).
    refine (reach_round m p ia k s _ a q (text e ++ u :: r) (p :: ps) (d0 :: d) l' f (parse_assignment_expression E F (negb (listp p))) _ _ _ ps p (d0 :: d) _ f R _ _ _ _).
    + rewrite Eq. reflexivity.
    + unfold higher_precedence, get_precedence. rewrite (plain_key _ Pq), Eq.
      assert (Y : (p <? ASSIGNMENT_LHS) = true) by (apply N.ltb_lt; eapply N.lt_trans; [exact Lp|reflexivity]).
      change (ASSIGNMENT_LHS =? ITER_BLOCK) with false. change (ASSIGNMENT_LHS =? ITER_CURLY) with false. cbv beta iota zeta. rewrite Y. reflexivity.
    + unfold left_denotation. rewrite Eq. cbv zeta. unfold listp. change ARRAY with 1. change HASH with 3. change BARE_CALL_ARG with 11. change CALL_ARG with 14.
      destruct ((p =? 1) || (p =? 3) || (p =? 11) || (p =? 14)); reflexivity.
    + unfold parse_assignment_expression. run1.
      assert (W : (v0 <- parse_assignment_expression_value E F false (negb (listp p));; ret (N_Assignment q (set_lhs safe t rn n args) v0))
        (PState (q :: a) (text e ++ u :: r) (p :: ps) (d0 :: d) l' f) =
        POk (N_Assignment q (set_lhs safe t rn n args) v) (PState (rev (text e) ++ q :: a) (u :: r) (p :: ps) (d0 :: d) (after l' e) f)).
      { unfold parse_assignment_expression_value. run1. run1. rewrite bind_assoc, (bind_ok _ _ _ _ _ Vv). run1. run1.
        assert (Y : negb (listp p) && ttype_eqb (ty u) T_Comma = false).
        { destruct (ttype_eqb (ty u) T_Comma) eqn:Eu; [|apply andb_false_r]. apply eqb_eq in Eu. destruct (Cm Eu) as [_ Y]. rewrite (Y Eq). reflexivity. }
        rewrite Y. run1. rewrite plain_splat by exact (g_plain _ _ _ G). cbv beta iota zeta. run1. cbv beta iota zeta. run1.
        rewrite (plain_value v v (fun bt l => block_or_only (bt, l))) by exact (g_plain _ _ _ G). reflexivity. }
      destruct safe; exact W.
  - assert (To : op_assign_type (ty q) = true). { unfold is_a in Tq. rewrite Eq in Tq. exact Tq. }
    destruct (V OP_ASSIGNMENT_RHS) as (v & G & Vv); [discriminate|reflexivity|]. exists v. split; [exact G|].
    refine (reach_round m p ia k s _ a q (text e ++ u :: r) (p :: ps) (d0 :: d) l' f (parse_op_assign_expression E) _ _ _ ps p (d0 :: d) _ f R _ _ _ _).
    + destruct (ty q); discriminate To || reflexivity.
    + assert (P : get_precedence q (Some (set_lhs safe t rn n args)) = OP_ASSIGNMENT_LHS) by (unfold get_precedence; destruct (ty q); discriminate To || reflexivity).
      unfold higher_precedence. rewrite (plain_key _ Pq), P.
      assert (Y : (p <? OP_ASSIGNMENT_LHS) = true) by (apply N.ltb_lt; eapply N.lt_trans; [exact Lp|reflexivity]).
      change (OP_ASSIGNMENT_LHS =? ITER_BLOCK) with false. change (OP_ASSIGNMENT_LHS =? ITER_CURLY) with false. cbv beta iota zeta. rewrite Y. reflexivity.
    + unfold left_denotation. destruct (ty q); discriminate To || reflexivity.
    + assert (W : parse_op_attr_assign_expression E (set_lhs safe t rn n args) rn n args safe (PState a (q :: text e ++ u :: r) (p :: ps) (d0 :: d) l' f) =
        POk (set_node safe q t rn n args v) (PState (rev (text e) ++ q :: a) (u :: r) (p :: ps) (d0 :: d) (after l' e) f)).
      { unfold parse_op_attr_assign_expression. run1. run1. rewrite (bind_ok _ _ _ _ _ Vv). cbv zeta. unfold set_node. clear - To.
        destruct (ty q) eqn:Et; try discriminate To; destruct (str_eqb n (s2l "[]")) eqn:En; cbn [negb]; cbv iota;
          unfold type_name; rewrite ?Et; cbn [type_value]; repeat run1; reflexivity. }
      destruct safe; exact W.
Qed.

Lemma spine_attr x t n q e : Spine m x -> Spine m (R_attr x t n q e).
Proof.
  intros Sx p ia u r a ps d0 d l f Hm K. pose proof (f_fits _ _ _ _ _ _ K) as Hf. cbn [fits] in Hf.
  apply andb_true_iff in Hf as [Hf Fe]. apply andb_true_iff in Hf as [Hf Ae]. apply andb_true_iff in Hf as [Hf Tq].
  apply andb_true_iff in Hf as [Hf Nb]. apply negb_true_iff in Nb.
  apply andb_true_iff in Hf as [Hf Mt]. fold (method_token n) in Mt. apply andb_true_iff in Hf as [Hf Rx]. apply andb_true_iff in Hf as [Tt Fx].
  apply N.leb_le in Rx.
  assert (T : ty t = T_Dot \/ ty t = T_SafeNavigation) by (apply orb_true_iff in Tt as [Tt|Tt]; apply is_a_ty in Tt; auto).
  cbn [text] in Hm. rewrite app_length in Hm. cbn [length] in Hm.
  assert (Kt : okf t = true /\ ty t <> T_DoKeyword /\ ty t <> T_Comma /\ ty t <> T_HashRocket /\ forall b, level (ty t) b <= 39)
    by (unfold okf; destruct T as [T|T]; rewrite T; repeat split; try discriminate; intros []; discriminate).
  destruct Kt as (Kt & T1 & T2 & T3 & T4).
  destruct (left_operand m (R_attr x t n q e) x t p ia u (n :: q :: text e ++ u :: r) a ps d0 d l f Sx K Fx ltac:(clear - Hm; lia) Kt) as (v & j & G & Hj & R).
  { cbn [left]. apply N.le_min_r. } { rewrite (rthr_17 _ Rx). apply T4. } { intros X. cbn [shallow]. rewrite X. reflexivity. }
  { exact T1. } { exact T2. } { exact T3. }
  { intros X. apply returns_right in X. unfold PRIMARY in Rx. clear - X Rx. lia. }
  assert (L3 : left (R_attr x t n q e) <= 3) by (cbn [left]; apply N.le_min_l).
  assert (Lp : p < 15). { pose proof (f_left _ _ _ _ _ _ K) as Lk. eapply N.lt_le_trans; [exact Lk|]. pose proof (lthr_mono _ _ L3) as Y. exact Y. }
  assert (R1 := dot_round m p ia j _ v t n (q :: text e ++ u :: r) (rev (text x) ++ a) ps (d0 :: d) (after l x) f R (g_plain _ _ _ G) T
      ltac:(clear - Lp; destruct (is_numeric v); lia) Mt).
  set (safe := ttype_eqb (ty t) T_SafeNavigation).
  change (dot_node t v (method_name n) []) with (set_lhs safe t v (method_name n) []) in R1.
  destruct (set_round (R_attr x t n q e) e p ia u r (n :: t :: rev (text x) ++ a) ps d0 d l (after l x) f safe q t v (method_name n) [] (S j) _ R1 K Tq Ae Fe
    ltac:(clear - Hm; lia) L3 eq_refl eq_refl eq_refl ltac:(intros X; cbn [shallow]; rewrite X, orb_true_r; reflexivity) eq_refl eq_refl) as (w & Gw & R2).
  exists (set_node safe q t v (method_name n) [] w), (S (S j)). split; [|split].
  - destruct (set_kind safe q t v (method_name n) [] w) as (K1 & K2 & K3 & K4).
    apply good_ordinary; try assumption; try reflexivity; cbn [meaning]; fold safe.
    + apply set_attr_stands; [exact Tq|exact Nb|exact (g_stands _ _ _ G)|exact (g_stands _ _ _ Gw)].
    + rewrite K2. symmetry. apply attr_integer.
  - cbn [text]. rewrite app_length. cbn [length]. clear - Hj. lia.
  - cbn [text after]. rewrite rev_app_distr. cbn [rev]. rewrite <- !app_assoc. cbn [app]. exact R2.
Qed.

Lemma spine_element x o xs q e : Spine m x -> Spine m (R_element x o xs q e).
Proof.
  intros Sx p ia u r a ps d0 d l f Hm K. pose proof (f_fits _ _ _ _ _ _ K) as Hf. cbn [fits] in Hf.
  apply andb_true_iff in Hf as [Hf Fe]. apply andb_true_iff in Hf as [Hf Ae]. apply andb_true_iff in Hf as [Hf Tq].
  apply andb_true_iff in Hf as [Hf Hx]. apply andb_true_iff in Hf as [Hf Hc]. apply andb_true_iff in Hf as [Hf Wo].
  apply andb_true_iff in Hf as [Hf To]. apply andb_true_iff in Hf as [Fx Rx]. apply is_a_ty in To. apply N.leb_le in Rx. apply negb_true_iff in Wo.
  cbn [text] in Hm. rewrite app_length in Hm. cbn [length] in Hm. rewrite app_length in Hm. cbn [length] in Hm.
  pose proof (f_shallow _ _ _ _ _ _ K) as Sk. cbn [shallow] in Sk.
  assert (Ko : okf o = true) by (unfold okf; rewrite To, Wo; reflexivity).
  destruct (left_operand m (R_element x o xs q e) x o p ia u (items_text text xs ++ q :: text e ++ u :: r) a ps d0 d l f Sx K Fx ltac:(clear - Hm; lia) Ko) as (v & j & G & Hj & R).
  { cbn [left]. apply N.le_min_r. } { rewrite (rthr_17 _ Rx), To. discriminate. } { intros X; cbn [shallow]; rewrite X; reflexivity. }
  { rewrite To; discriminate. } { rewrite To; discriminate. } { rewrite To; discriminate. }
  { intros X. apply returns_right in X. unfold PRIMARY in Rx. clear - X Rx. lia. }
  destruct (closed_ended _ _ Hc) as (c & Tc & Ec).
  destruct (args_ok m IH IH0 false T_RBracket c xs [] (N_Call o v (s2l "[]") []) (q :: text e ++ u :: r) (o :: rev (text x) ++ a) (p :: ps) d0 d (after l x) f eq_refl eq_refl
    ltac:(rewrite Tc; discriminate) ltac:(rewrite Tc; discriminate) ltac:(rewrite Tc; discriminate) ltac:(rewrite Tc; discriminate)
    ltac:(apply closer_stopper; unfold closer; rewrite Tc; reflexivity) ltac:(cbn [map]; rewrite app_nil_r; exact Ec) Hx eq_refl
    ltac:(cbn [pairs_text flat_map]; rewrite app_nil_r; clear - Hm; lia)
    ltac:(cbn [existsb]; rewrite orb_false_r; intros X; apply Sk; rewrite X, orb_true_r; reflexivity)) as (vs & w & [Sv Nv] & Ew & V).
  cbn [pairs_text flat_map after_all] in Ew, V. rewrite app_nil_r in Ew, V. cbn [listed_meaning] in Sv.
  assert (L3 : left (R_element x o xs q e) <= 3) by (cbn [left]; apply N.le_min_l).
  assert (R1 : reach m p ia (S j) (PState a (text x ++ o :: items_text text xs ++ q :: text e ++ u :: r) (p :: ps) (d0 :: d) l f) (set_lhs false o v (s2l "[]") vs)
    (PState (rev (items_text text xs) ++ o :: rev (text x) ++ a) (q :: text e ++ u :: r) (p :: ps) (d0 :: d) (items_after after (after l x) xs) f)).
  { refine (reach_round m p ia j _ v _ o (items_text text xs ++ q :: text e ++ u :: r) (p :: ps) (d0 :: d) _ f (parse_ref_expression E F) _ _ _ ps p (d0 :: d) _ f R _ _ _ _).
    + apply okf_valid. exact Ko.
    + apply higher; [exact Ko|exact (g_plain _ _ _ G)|rewrite To; discriminate|rewrite To; discriminate|].
      rewrite To. pose proof (f_left _ _ _ _ _ _ K) as L. cbn [level]. pose proof (lthr_36 (left (R_element x o xs q e))). clear - L H. lia.
    + unfold left_denotation. rewrite To. unfold treat_left_bracket_as_element_reference. rewrite Wo. reflexivity.
    + unfold parse_ref_expression. run. cbv zeta.
      change (bind (cur_is T_RBracket) ?h (PState ?x1 ?x2 ?x3 ?x4 ?x5 ?x6)) with (h (ttype_eqb (ty (hd no_token x2)) T_RBracket) (PState x1 x2 x3 x4 x5 x6)). cbv beta.
      assert (Hh : ttype_eqb (ty (hd no_token (items_text text xs ++ q :: text e ++ u :: r))) T_RBracket = false).
      { destruct xs as [|[e' s] xs]; [discriminate Hc|].
        rewrite items_text_cons, <- !app_assoc, hd_text. apply all_fit_cons in Hx as [Hx _].
        apply (item_hd _ _ (fun t => ttype_eqb t T_RBracket) Hx); [reflexivity|]. intros t0 St. apply starts_not; [reflexivity|assumption]. }
      rewrite Hh.
      assert (V' : parse_call_args E F (N_Call o v (s2l "[]") []) false T_RBracket (PState (o :: rev (text x) ++ a) (items_text text xs ++ q :: text e ++ u :: r) (p :: ps) (d0 :: d) (after l x) f) =
        POk (add_args vs (N_Call o v (s2l "[]") [])) (PState (rev w ++ o :: rev (text x) ++ a) (c :: q :: text e ++ u :: r) (p :: ps) (d0 :: d) (items_after after (after l x) xs) f)).
      { unfold parse_call_args. cbv zeta. cbn [andb]. run1. etransitivity; [exact (V _)|]. reflexivity. }
      rewrite (bind_ok _ _ _ _ _ V'). rewrite add_call. cbn [app]. run. rewrite Ew, rev_app_distr. reflexivity. }
  destruct (set_round (R_element x o xs q e) e p ia u r (rev (items_text text xs) ++ o :: rev (text x) ++ a) ps d0 d l (items_after after (after l x) xs) f false q o v (s2l "[]") vs (S j) _ R1 K Tq Ae Fe
    ltac:(clear - Hm; lia) L3 eq_refl eq_refl eq_refl ltac:(intros X; cbn [shallow]; rewrite X, orb_true_r; reflexivity) eq_refl eq_refl) as (y & Gw & R2).
  exists (set_node false q o v (s2l "[]") vs y), (S (S j)). split; [|split].
  - destruct (set_kind false q o v (s2l "[]") vs y) as (K1 & K2 & K3 & K4).
    apply good_ordinary; try assumption; try reflexivity; cbn [meaning].
    + apply set_element_stands; [exact (g_stands _ _ _ G)|exact Sv| |exact (g_stands _ _ _ Gw)].
      intros ->. destruct xs as [|[e' s] xs]; [discriminate Hc|]. inversion Sv.
    + rewrite K2. symmetry. apply element_integer.
  - cbn [text]. rewrite app_length. cbn [length]. rewrite app_length. cbn [length]. clear - Hj. lia.
  - cbn [text after]. rewrite rev_app_distr. cbn [rev]. rewrite rev_app_distr. cbn [rev]. rewrite <- !app_assoc. cbn [app]. rewrite <- !app_assoc. exact R2.
Qed.

Lemma spine_defined k o e c : Spine m (R_defined k o e c).
Proof.
  intros p ia u r a ps d0 d l f Hm K. pose proof (f_fits _ _ _ _ _ _ K) as Hf. cbn [fits] in Hf.
  apply andb_true_iff in Hf as [Hf Fe]. apply andb_true_iff in Hf as [Hf Ae]. apply andb_true_iff in Hf as [Hf Tc].
  apply andb_true_iff in Hf as [Hf Wo]. apply andb_true_iff in Hf as [Tk To]. apply is_a_ty in Tk, To, Tc.
  apply at_least_3 in Ae as (Le & Re & Ne). cbn [text] in Hm. cbn [length] in Hm. rewrite app_length in Hm. cbn [length] in Hm.
  pose proof (f_shallow _ _ _ _ _ _ K) as Sk. cbn [shallow] in Sk.
  destruct (inner m IH e c CALL_ARG (u :: r) (o :: k :: a) (p :: ps) d0 d l f Fe ltac:(clear - Hm; lia)) as (v & G & V).
  { apply lthr3 in Le. eapply N.lt_le_trans; [|exact Le]. reflexivity. } { unfold okf; rewrite Tc; reflexivity. }
  { rewrite Tc. apply N.le_0_l. } { rewrite Tc. apply N.le_0_l. } { intros X. apply Sk. exact X. }
  { rewrite Tc; discriminate. } { rewrite Tc; discriminate. } { rewrite Tc; discriminate. } { rewrite Ne; discriminate. }
  exists (N_Defined k v), 0%nat. split; [|split; [apply Nat.le_0_l|]].
  - apply good_ordinary; try reflexivity.
    + cbn [meaning]. apply stands_defined. exact (g_stands _ _ _ G).
    + symmetry. apply integer_tag. reflexivity.
  - cbn [text after app]. rewrite <- !app_assoc. cbn [app].
    refine (reach_null m p ia a (k :: o :: text e ++ c :: u :: r) (p :: ps) (d0 :: d) l f (parse_defined E) _ _ _ _).
    + cbn [hd]. rewrite Tk. reflexivity.
    + unfold parse_defined. run. rewrite (bind_ok _ _ _ _ _ V). run. cbn [rev]. rewrite rev_app_distr. cbn [rev app]. rewrite <- !app_assoc. reflexivity.
Qed.

Lemma spine_lambda k p o b t : Spine m (R_lambda k p o b t).
Proof.
  intros q ia u r a ps d0 d l f Hm K. pose proof (f_fits _ _ _ _ _ _ K) as Hf. cbn [fits] in Hf. cbv zeta in Hf.
  apply andb_true_iff in Hf as [Hf Hb]. apply andb_true_iff in Hf as [Hf Ht]. apply andb_true_iff in Hf as [Hf To]. apply andb_true_iff in Hf as [Tk Tp].
  apply is_a_ty in Tk. unfold body_fits in Hb. apply andb_true_iff in Hb as [Hb1 Hb2].
  assert (Ty : ty o = T_LCurlyBrace /\ ty t = T_RCurlyBrace \/ ty o = T_DoKeyword /\ ty t = T_EndKeyword).
  { unfold is_a in *. apply orb_true_iff in To as [T|T]; apply eqb_eq in T; rewrite T in *; [left|right]; (split; [reflexivity|apply eqb_eq; exact Ht]). }
  cbn [text] in Hm. cbn [length] in Hm. rewrite app_length in Hm. cbn [length] in Hm. rewrite app_length in Hm. cbn [length] in Hm.
  assert (Ct : closer t = true /\ is_end_of_line (ty t) = false) by (unfold closer; destruct Ty as [[_ T]|[_ T]]; rewrite T; split; reflexivity).
  destruct Ct as (Ct & Lt).
  set (w := match p with Some (x, y) => [x; y] | None => [] end) in *.
  destruct (body_ok m IH (Some (rescue_in_body E F)) (fun x => ttype_eqb x (ty t)) b t (o :: rev w ++ k :: a) (u :: r) (q :: ps) (d0 :: d) l f
    (eqb_same (ty t)) Ct Lt) as (t0 & ws & Gs & W).
  { destruct Ty as [[_ T]|[_ T]]; rewrite T; (split; [reflexivity|split; [reflexivity|]]); intros x Sx; apply starts_not; (reflexivity || exact Sx). }
  { clear - Hm. lia. } { exact Hb1. } { exact Hb2. }
  set (h := match p with Some _ => true | None => false end).
  exists (N_Iter o (N_StabbyProc k h []) h [] (t0, ws)), 0%nat. split; [|split; [apply Nat.le_0_l|]].
  - apply good_ordinary; try reflexivity.
    cbn [meaning]. replace (match p with Some _ => sx "args" [] | None => SInt 0 end) with (if h then sx "args" [] else SInt 0) by (destruct p; reflexivity).
    apply stands_iter; [apply stands_lambda|constructor|exact (goods_stands fst _ _ _ Gs)].
  - cbn [text after]. fold w. cbn [app]. rewrite <- !app_assoc. cbn [app]. rewrite <- !app_assoc. cbn [app].
    refine (reach_null m q ia a (k :: w ++ o :: body_text text b ++ t :: u :: r) (q :: ps) (d0 :: d) l f (parse_stabby_proc E F) _ _ _ _).
    + cbn [hd]. rewrite Tk. reflexivity.
    + assert (Z : parse_iter_expression E F (N_StabbyProc k h []) (PState (rev w ++ k :: a) (o :: body_text text b ++ t :: u :: r) (q :: ps) (d0 :: d) l f) =
        POk (N_Iter o (N_StabbyProc k h []) h [] (t0, ws)) (PState (t :: rev (body_text text b) ++ o :: rev w ++ k :: a) (u :: r) (q :: ps) (d0 :: d) l f)).
      { unfold parse_iter_expression. run1. run1. cbv zeta. rewrite andb_false_r. run1. unfold with_locals. run1. run1. rewrite !bind_assoc.
        unfold parse_iter_head. run. cbn [fst snd].
        unfold parse_iter_body, parse_body_rescue_to, parse_body_rescue.
        replace (if ttype_eqb (ty o) T_LCurlyBrace then T_RCurlyBrace else T_EndKeyword) with (ty t) by (destruct Ty as [[T1 T2]|[T1 T2]]; rewrite T1, T2; reflexivity).
        rewrite (bind_ok _ _ _ _ _ W).
        destruct Ty as [[T1 T2]|[T1 T2]]; run; reflexivity. }
      assert (Y : rev (k :: w ++ o :: body_text text b ++ [t]) ++ a = t :: rev (body_text text b) ++ o :: rev w ++ k :: a).
      { cbn [rev]. rewrite !rev_app_distr. cbn [rev app]. rewrite !rev_app_distr. cbn [rev app]. rewrite <- !app_assoc. reflexivity. }
      rewrite Y. clear Y.
      assert (C : negb (ttype_eqb (ty o) T_DoKeyword) && negb (ttype_eqb (ty o) T_LCurlyBrace) = false) by (destruct Ty as [[T1 _]|[T1 _]]; rewrite T1; reflexivity).
      assert (C2 : ttype_eqb (ty o) T_LParen = false /\ can_be_first_arg_of_def (ty o) = false) by (destruct Ty as [[T1 _]|[T1 _]]; rewrite T1; split; reflexivity).
      destruct C2 as [C2 C3].
      unfold parse_stabby_proc. run1. run1. destruct p as [[x y]|]; subst w h; cbn [app].
      * apply andb_true_iff in Tp as [Tx Ty']. apply is_a_ty in Tx, Ty'.
        run. rewrite C. cbn [fst snd]. exact Z.
      * run. rewrite C2, C3. run. rewrite C. cbn [fst snd]. exact Z.
Qed.

Lemma spine_sclass k t e b z : Spine m (R_sclass k t e b z).
Proof.
  intros p ia u r a ps d0 d l f Hm K. pose proof (f_fits _ _ _ _ _ _ K) as Hf. cbn [fits] in Hf.
  apply andb_true_iff in Hf as [Hf Tz]. apply andb_true_iff in Hf as [Hf Fb]. apply andb_true_iff in Hf as [Hf Hl]. apply andb_true_iff in Hf as [Hf Fe].
  apply andb_true_iff in Hf as [Hf Ae]. apply andb_true_iff in Hf as [Tk Tt]. apply is_a_ty in Tk, Tt, Tz.
  destruct l; [|discriminate Hl]. destruct (after [] e) eqn:El; [|discriminate Hl]. destruct (body_after after [] b) eqn:Eb; [|discriminate Hl].
  apply at_least_3 in Ae as (Le & Re & Ne). cbn [text] in Hm. cbn [length] in Hm. rewrite !app_length in Hm. cbn [length] in Hm.
  pose proof (f_shallow _ _ _ _ _ _ K) as Sk. cbn [shallow] in Sk.
  assert (Sb : separated (fst b) = true) by (unfold body_fits in Fb; ands; assumption).
  assert (Ex : exists x y, body_text text b ++ z :: u :: r = x :: y /\ separator x = true).
  { destruct b as [[|x s] xs]; cbn [fst separated] in Sb; [discriminate Sb|]. cbn [forallb] in Sb. apply andb_true_iff in Sb as [Sb _].
    eexists; eexists; split; [reflexivity|exact Sb]. }
  destruct Ex as (x & y & Ex & Sx). pose proof (separator_closer _ Sx) as Cx.
  destruct (inner m IH e x BARE_CALL_ARG y (t :: k :: a) (p :: ps) d0 d [] f Fe ltac:(clear - Hm; lia)) as (v & G & V).
  { apply lthr3 in Le. eapply N.lt_le_trans; [|exact Le]. reflexivity. } { apply closer_okf. exact Cx. }
  { rewrite closer_level by exact Cx. apply N.le_0_l. } { rewrite closer_level by exact Cx. apply N.le_0_l. } { intros X. apply Sk. exact X. }
  { apply closer_not; [exact Cx|reflexivity]. } { apply closer_not; [exact Cx|reflexivity]. } { apply closer_not; [exact Cx|reflexivity]. } { rewrite Ne; discriminate. }
  unfold body_fits in Fb. apply andb_true_iff in Fb as [Hb1 Hb2]. destruct (end_closer z Tz) as [Cz Lz].
  destruct (body_ok m IH None (fun x => ttype_eqb x T_EndKeyword) b z (rev (text e) ++ t :: k :: a) (u :: r) (p :: ps) (d0 :: d) [] f
    ltac:(rewrite Tz; reflexivity) Cz Lz ends_end ltac:(clear - Hm; lia) ltac:(destruct (fst b); [discriminate Hb1|exact Hb1]) Hb2) as (t0 & ws & Gw & W).
  exists (N_Sclass k v (t0, ws)), 0%nat. split; [|split; [apply Nat.le_0_l|]].
  - apply good_ordinary; try reflexivity.
    + cbn [meaning]. apply stands_sclass; [exact (g_stands _ _ _ G)|exact (goods_stands fst _ _ _ Gw)].
    + symmetry. apply integer_tag. reflexivity.
  - cbn [text after app]. rewrite <- !app_assoc. cbn [app].
    refine (reach_null m p ia a (k :: t :: text e ++ body_text text b ++ z :: u :: r) (p :: ps) (d0 :: d) [] f (parse_class E F) _ _ _ _).
    + cbn [hd]. rewrite Tk. reflexivity.
    + unfold parse_class. run1. rewrite run_peek. cbn [hd]. rewrite Tt. change (ttype_eqb T_LeftShift T_LeftShift) with true. cbv iota.
      unfold parse_sclass. run1. run1. run1. rewrite Ex. rewrite (bind_ok _ _ _ _ _ V). rewrite <- Ex. rewrite El. unfold parse_body_to.
      rewrite (bind_ok _ _ _ _ _ W). rewrite Eb. run. cbn [rev]. rewrite !rev_app_distr. cbn [rev app]. rewrite <- !app_assoc. reflexivity.
Qed.
End Set_.

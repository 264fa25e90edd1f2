(** * RubyForms: conditional expressions, assignments, constants, modifiers and jumps

    [Spine] for further programs of SpecRuby without lists and bodies.  No code is modelled here. *)
From Coq Require Import Strings.String NArith ZArith Bool List Lia.
From Verif Require Import Base Token Node ParserBase ParserModel Sexp SpecRuby RubyTransform RubyNodes RubyBase RubyRun RubyBody RubyExpr RubyOps.
Import ListNotations.
Open Scope N_scope.
Open Scope list_scope.

Lemma rthr3 n : ARGUMENT <= n -> 7 <= rthr n.
Proof. intros H. apply (rthr_mono 3) in H. exact H. Qed.
Lemma lthr3 n : ARGUMENT <= n -> 15 <= lthr n.
Proof. intros H. apply (lthr_mono 3) in H. exact H. Qed.
Lemma at_least_3 e : at_least ARGUMENT e = true -> ARGUMENT <= left e /\ ARGUMENT <= right e /\ returns e = false.
Proof.
  intros H. apply andb_true_iff in H as [A B]. apply N.leb_le in A, B. split; [exact A|]. split; [exact B|].
  destruct (returns e) eqn:R; [|reflexivity]. apply returns_right in R. unfold ARGUMENT in B. clear - R B. lia.
Qed.

Definition op_node (q n : token) (v : node) : node :=
  match ty q with
  | T_AmpersandAmpersandEqual => N_OpAssignAnd q (N_Identifier n true) v
  | T_PipePipeEqual => N_OpAssignOr q (N_Identifier n true) v
  | x => N_OpAssign q (s2l (operator x)) (N_Identifier n true) v
  end.
Lemma op_kind q n v mv : is_variable (ty n) = true -> lit n = Some (name n) -> stands v mv ->
  stands (op_node q n v) (op_assign n (ty q) mv) /\ is_numeric (op_node q n v) = false /\ fixnum (op_node q n v) = None /\
  plain (op_node q n v) = true /\ integer (op_assign n (ty q) mv) = None.
Proof.
  intros Vn Ln Sv.
  assert (Ia : forall x, integer (assign n x) = None) by (intros x; unfold assign; apply integer_tag; destruct (ty n); reflexivity).
  unfold op_node, op_assign.
  destruct (ty q); (split; [first [apply stands_op_and|apply stands_op_or|apply stands_op_assign]; assumption
    |split; [reflexivity|split; [reflexivity|split; [reflexivity|first [apply Ia|apply integer_tag; reflexivity]]]]]).
Qed.

Section Forms.
Variable m : nat.
Hypothesis IH : Main m.
Notation E := (parse_expression m).
Notation F := (m + m + 2)%nat.

(** *** Conditional expressions *)
Lemma spine_ternary c q x k y : Spine m c -> Spine m (R_ternary c q x k y).
Proof.
  intros Sc p ia u r a ps d0 d l f Hm K. pose proof (f_fits _ _ _ _ _ _ K) as Hf.
  cbn [fits] in Hf.
  apply andb_true_iff in Hf as [Hf Ay]. apply andb_true_iff in Hf as [Hf Ax]. apply andb_true_iff in Hf as [Hf Lc].
  apply andb_true_iff in Hf as [Hf Rc]. apply andb_true_iff in Hf as [Hf Fy]. apply andb_true_iff in Hf as [Hf Fx].
  apply andb_true_iff in Hf as [Hf Fc]. apply andb_true_iff in Hf as [Tq Tk]. apply is_a_ty in Tq, Tk. apply N.leb_le in Lc, Rc.
  apply at_least_3 in Ax as (Lx & Rx & Nx). apply at_least_3 in Ay as (Ly & Ry & Ny).
  cbn [text] in Hm. rewrite !app_length in Hm. cbn [length] in Hm. rewrite app_length in Hm. cbn [length] in Hm.
  assert (Mc : (length (text c) <= m)%nat) by (clear - Hm; lia).
  assert (Mx : (length (text x) < m)%nat) by (clear - Hm; lia).
  assert (My : (length (text y) < m)%nat) by (clear - Hm; lia).
  assert (Kq : okf q = true) by (unfold okf; rewrite Tq; reflexivity).
  assert (Kk : okf k = true) by (unfold okf; rewrite Tk; reflexivity).
  assert (Sh : forall e, (shallow e = true -> shallow (R_ternary c q x k y) = true) -> shallow e = true -> d0 = 0)
    by (intros e0 H H'; exact (proj1 (f_shallow _ _ _ _ _ _ K (H H')))).
  destruct (left_operand m (R_ternary c q x k y) c q p ia u (text x ++ k :: text y ++ u :: r) a ps d0 d l f Sc K Fc Mc Kq) as (v & j & G & Hj & R).
  { cbn [left]. unfold ARGUMENT. clear - Lc. lia. } { rewrite Tq. cbn [level]. apply rthr_mono in Rc. eapply N.le_trans; [|exact Rc]. vm_compute. discriminate. }
  { intros H; cbn [shallow]; rewrite H; reflexivity. } { rewrite Tq; discriminate. } { rewrite Tq; discriminate. } { rewrite Tq; discriminate. }
  { intros H. apply returns_right in H. clear - H Rc. lia. }
  destruct (inner m IH x k TERNARY_TRUE (text y ++ u :: r) (q :: rev (text c) ++ a) (p :: ps) d0 d (after l c) f Fx Mx) as (vx & Gx & Vx).
  { apply lthr3 in Lx. eapply N.lt_le_trans; [|exact Lx]. reflexivity. } { exact Kk. } { rewrite Tk. apply rthr3. exact Rx. }
  { rewrite Tk. vm_compute. discriminate. } { apply Sh. intros H; cbn [shallow]; rewrite H, orb_true_r; reflexivity. }
  { rewrite Tk; discriminate. } { rewrite Tk; discriminate. } { rewrite Tk; discriminate. } { rewrite Nx. discriminate. }
  destruct (operand m IH (R_ternary c q x k y) y p ia u r (k :: rev (text x) ++ q :: rev (text c) ++ a) (p :: ps) d0 d l (after (after l c) x) f TERNARY_FALSE K Fy My) as (vy & Gy & Vy).
  { apply lthr3 in Ly. eapply N.lt_le_trans; [|exact Ly]. reflexivity. } { exact (f_right _ _ _ _ _ _ K). } { discriminate. }
  { exact Ry. } { intros H; cbn [shallow]; rewrite H, orb_true_r; reflexivity. } { exact (comma_operand _ _ _ _ _ _ K I). }
  { rewrite Ny. discriminate. } { reflexivity. }
  exists (N_If q v vx vy), (S j). split; [|split].
  - apply good_ordinary; try reflexivity; [|symmetry; apply integer_tag; reflexivity].
    apply stands_if; [exact (g_stands _ _ _ G)|exact (g_stands _ _ _ Gx)|exact (g_stands _ _ _ Gy)].
  - cbn [text]. rewrite app_length. cbn [length]. clear - Hj. lia.
  - cbn [text after]. rewrite rev_app_distr. cbn [rev]. rewrite rev_app_distr. cbn [rev]. rewrite <- !app_assoc. cbn [app]. rewrite <- !app_assoc. cbn [app].
    refine (reach_round m p ia j _ v _ q (text x ++ k :: text y ++ u :: r) (p :: ps) (d0 :: d) _ f (parse_ternary_expression E) _ _ _ ps p (d0 :: d) _ f R _ _ _ _).
    + apply okf_valid. exact Kq.
    + apply higher; [exact Kq|exact (g_plain _ _ _ G)|rewrite Tq; discriminate|rewrite Tq; discriminate|].
      rewrite Tq. exact (f_left _ _ _ _ _ _ K).
    + unfold left_denotation. rewrite Tq. reflexivity.
    + unfold parse_ternary_expression. run. rewrite (bind_ok _ _ _ _ _ Vx). run. rewrite (bind_ok _ _ _ _ _ Vy).
      rewrite <- ?app_assoc. reflexivity.
Qed.

(** *** Assignments *)
Lemma spine_assign n q e : Spine m (R_assign n q e).
Proof.
  intros p ia u r a ps d0 d l f Hm K. pose proof (f_fits _ _ _ _ _ _ K) as Hf. pose proof (f_tok _ _ _ _ _ _ K) as Ku.
  cbn [fits] in Hf. apply andb_true_iff in Hf as [Hf Fe]. apply andb_true_iff in Hf as [Hf Ae].
  apply andb_true_iff in Hf as [Hf Tq]. apply andb_true_iff in Hf as [Vn Nn]. apply is_a_ty in Tq.
  apply at_least_3 in Ae as (Le & Re & Ne). cbn [text length] in Hm.
  assert (Me : (length (text e) < m)%nat) by (clear - Hm; lia).
  destruct (named_ok n Nn) as [Ln Cn].
  set (l' := if ttype_eqb (ty n) T_BareName then name n :: l else l) in *.
  assert (Cm : ty u = T_Comma -> listp p = true /\ assigns e = false).
  { intros H. destruct (f_list _ _ _ _ _ _ K H) as [A|[A B]]; [discriminate A|]. split; [exact A|]. apply negb_true_iff. exact B. }
  destruct (operand m IH (R_assign n q e) e p ia u r (q :: n :: a) (p :: ps) d0 d l l' f ASSIGNMENT_RHS K Fe Me) as (v & G & V).
  { apply lthr3 in Le. eapply N.lt_le_trans; [|exact Le]. reflexivity. } { eapply N.le_trans; [exact (f_right _ _ _ _ _ _ K)|]. vm_compute. discriminate. }
  { discriminate. } { exact Re. } { intros H; exact H. } { intros H. apply Cm. exact H. } { rewrite Ne. discriminate. } { reflexivity. }
  set (n0 := N_Identifier n (bound l (name n))).
  exists (N_Assignment q n0 v), 1%nat. split; [|split].
  - apply good_ordinary; try reflexivity.
    apply stands_assign; [exact Vn|exact Ln|]. exact (g_stands _ _ _ G).
  - cbn [text length]. clear. lia.
  - cbn [text after app rev]. fold l'. rewrite <- !app_assoc. cbn [app].
    refine (reach_round m p ia 0 _ n0 (n :: a) q (text e ++ u :: r) (p :: ps) (d0 :: d) l f (parse_assignment_expression E F (negb (listp p))) _ _ _ ps p (d0 :: d) _ f _ _ _ _ _).
    + apply (reach_null m p ia a (n :: q :: text e ++ u :: r) (p :: ps) (d0 :: d) l f parse_identifier).
      * cbn [hd]. destruct (ty n); discriminate Vn || reflexivity.
      * apply run_identifier. exact Nn.
    + rewrite Tq. reflexivity.
    + unfold higher_precedence, get_precedence. rewrite Tq. cbn [node_is_symbol_key n0].
      assert (X : (p <? ASSIGNMENT_LHS) = true).
      { pose proof (f_left _ _ _ _ _ _ K) as Lk. cbn [left] in Lk. apply N.ltb_lt. eapply N.lt_trans; [exact Lk|]. reflexivity. }
      change (ASSIGNMENT_LHS =? ITER_BLOCK) with false. change (ASSIGNMENT_LHS =? ITER_CURLY) with false. cbv beta iota zeta. rewrite X. reflexivity.
    + unfold left_denotation. rewrite Tq. cbv zeta. unfold listp. change ARRAY with 1. change HASH with 3. change BARE_CALL_ARG with 11. change CALL_ARG with 14.
      destruct ((p =? 1) || (p =? 3) || (p =? 11) || (p =? 14)); reflexivity.
    + unfold parse_assignment_expression. run1. unfold n0. unfold add_assignment_locals, identifier_add_to_locals.
      assert (L : forall B (k : unit -> M B), bind (match ty n with T_BareName => name <- literal_string n ;; add_local name | _ => ret tt end) k
         (PState (n :: a) (q :: text e ++ u :: r) (p :: ps) (d0 :: d) l f) = k tt (PState (n :: a) (q :: text e ++ u :: r) (p :: ps) (d0 :: d) l' f)).
      { intros B k. unfold l'. destruct (ty n); try discriminate Vn; try reflexivity. unfold literal_string. rewrite Ln.
        change (bind _ k ?s) with (k tt (PState (n :: a) (q :: text e ++ u :: r) (p :: ps) (d0 :: d) (cstr (name n) :: l) f)). rewrite Cn. reflexivity. }
      rewrite L. run1. unfold parse_assignment_expression_value. run1. run1. rewrite bind_assoc, (bind_ok _ _ _ _ _ V). run1. run1.
      assert (X : negb (listp p) && ttype_eqb (ty u) T_Comma = false).
      { destruct (ttype_eqb (ty u) T_Comma) eqn:Eu; [|apply andb_false_r]. apply eqb_eq in Eu. destruct (Cm Eu) as [-> _]. reflexivity. }
      rewrite X. run1. rewrite plain_splat by exact (g_plain _ _ _ G). cbv beta iota zeta. run1. cbv beta iota zeta. run1.
      rewrite (plain_value v v (fun bt l => block_or_only (bt, l))) by exact (g_plain _ _ _ G). reflexivity.
Qed.

Lemma spine_op_assign n q e : Spine m (R_op_assign n q e).
Proof.
  intros p ia u r a ps d0 d l f Hm K. pose proof (f_fits _ _ _ _ _ _ K) as Hf. pose proof (f_tok _ _ _ _ _ _ K) as Ku.
  cbn [fits] in Hf. apply andb_true_iff in Hf as [Hf Fe]. apply andb_true_iff in Hf as [Hf Ae].
  apply andb_true_iff in Hf as [Hf Tq]. apply andb_true_iff in Hf as [Vn Nn].
  apply at_least_3 in Ae as (Le & Re & Ne). cbn [text length] in Hm.
  assert (Me : (length (text e) < m)%nat) by (clear - Hm; lia).
  destruct (named_ok n Nn) as [Ln Cn].
  set (l' := if ttype_eqb (ty n) T_BareName then name n :: l else l) in *.
  destruct (operand m IH (R_op_assign n q e) e p ia u r (q :: n :: a) (p :: ps) d0 d l l' f ASSIGNMENT_RHS K Fe Me) as (v & G & V).
  { apply lthr3 in Le. eapply N.lt_le_trans; [|exact Le]. reflexivity. } { eapply N.le_trans; [exact (f_right _ _ _ _ _ _ K)|]. vm_compute. discriminate. }
  { discriminate. } { exact Re. } { intros H; exact H. } { exact (comma_operand _ _ _ _ _ _ K I). } { rewrite Ne. discriminate. } { reflexivity. }
  set (n0 := N_Identifier n (bound l (name n))). set (w := op_node q n v).
  pose proof (op_kind q n v (meaning l' e) Vn Ln (g_stands _ _ _ G)) as Wk. fold w in Wk.
  destruct Wk as (W1 & W2 & W3 & W4 & W5).
  exists w, 1%nat. split; [|split].
  - apply good_ordinary; try assumption; try reflexivity; [cbn [meaning]; fold l'; rewrite W5; exact W3|]. unfold w, op_node. destruct (ty q); reflexivity.
  - cbn [text length]. clear. lia.
  - cbn [text after app rev]. fold l'. rewrite <- !app_assoc. cbn [app].
    refine (reach_round m p ia 0 _ n0 (n :: a) q (text e ++ u :: r) (p :: ps) (d0 :: d) l f (parse_op_assign_expression E) _ _ _ ps p (d0 :: d) _ f _ _ _ _ _).
    + apply (reach_null m p ia a (n :: q :: text e ++ u :: r) (p :: ps) (d0 :: d) l f parse_identifier).
      * cbn [hd]. destruct (ty n); discriminate Vn || reflexivity.
      * apply run_identifier. exact Nn.
    + destruct (ty q); discriminate Tq || reflexivity.
    + assert (P : get_precedence q (Some n0) = OP_ASSIGNMENT_LHS) by (unfold get_precedence; destruct (ty q); discriminate Tq || reflexivity).
      unfold higher_precedence. rewrite P. cbn [node_is_symbol_key n0].
      assert (X : (p <? OP_ASSIGNMENT_LHS) = true).
      { pose proof (f_left _ _ _ _ _ _ K) as Lk. cbn [left] in Lk. apply N.ltb_lt. eapply N.lt_trans; [exact Lk|]. reflexivity. }
      change (OP_ASSIGNMENT_LHS =? ITER_BLOCK) with false. change (OP_ASSIGNMENT_LHS =? ITER_CURLY) with false. cbv beta iota zeta. rewrite X. reflexivity.
    + unfold left_denotation. destruct (ty q); discriminate Tq || reflexivity.
    + unfold parse_op_assign_expression. unfold n0. unfold identifier_add_to_locals.
      assert (L : forall B (k : unit -> M B), bind (match ty n with T_BareName => name <- literal_string n ;; add_local name | _ => ret tt end) k
         (PState (n :: a) (q :: text e ++ u :: r) (p :: ps) (d0 :: d) l f) = k tt (PState (n :: a) (q :: text e ++ u :: r) (p :: ps) (d0 :: d) l' f)).
      { intros B k. unfold l'. destruct (ty n); try discriminate Vn; try reflexivity. unfold literal_string. rewrite Ln.
        change (bind _ k ?s) with (k tt (PState (n :: a) (q :: text e ++ u :: r) (p :: ps) (d0 :: d) (cstr (name n) :: l) f)). rewrite Cn. reflexivity. }
      rewrite L. unfold op_assign_rest. run1. run1. unfold w, op_node. clear - V Tq.
      destruct (ty q) eqn:Et; try discriminate Tq; unfold type_name; rewrite ?Et; cbn [type_value]; repeat run1; rewrite (bind_ok _ _ _ _ _ V); reflexivity.
Qed.

(** *** Constants *)
Lemma run_top t n a r ps d l f : ty n = T_Constant -> named n = true ->
  parse_top_level_constant (PState a (t :: n :: r) ps d l f) = POk (N_Colon3 t (name n)) (PState (n :: t :: a) r ps d l f).
Proof.
  intros Tn Nn. destruct (named_ok n Nn) as [Ln _]. unfold parse_top_level_constant. run. unfold literal_string. rewrite Ln. reflexivity.
Qed.
Lemma spine_top t n : Spine m (R_top t n).
Proof.
  intros p ia u r a ps d0 d l f Hm K. pose proof (f_fits _ _ _ _ _ _ K) as Hf.
  cbn [fits] in Hf. apply andb_true_iff in Hf as [Hf Nn]. apply andb_true_iff in Hf as [Tt Tn]. apply is_a_ty in Tt, Tn.
  exists (N_Colon3 t (name n)), 0%nat. split; [|split; [apply Nat.le_0_l|]].
  - constructor; try reflexivity; try exact I; [apply stands_colon3|exists t; reflexivity|discriminate].
  - refine (reach_null m p ia a (t :: n :: u :: r) (p :: ps) (d0 :: d) l f parse_top_level_constant _ _ _ _).
    + cbn [hd]. rewrite Tt. reflexivity.
    + apply run_top; assumption.
Qed.
Lemma spine_scope x t n : Spine m x -> Spine m (R_scope x t n).
Proof.
  intros Sx p ia u r a ps d0 d l f Hm K. pose proof (f_fits _ _ _ _ _ _ K) as Hf.
  cbn [fits] in Hf. apply andb_true_iff in Hf as [Hf Nn]. apply andb_true_iff in Hf as [Hf Tn]. apply andb_true_iff in Hf as [Hf Wt].
  apply andb_true_iff in Hf as [Hf Tt]. apply andb_true_iff in Hf as [Fx Rx]. apply is_a_ty in Tt, Tn. apply N.leb_le in Rx. apply negb_true_iff in Wt.
  cbn [text] in Hm. rewrite app_length in Hm.
  assert (Mx : (length (text x) <= m)%nat) by (clear - Hm; lia).
  destruct (named_ok n Nn) as [Ln _].
  assert (Kt : okf t = true) by (unfold okf; rewrite Tt, Wt; reflexivity).
  destruct (left_operand m (R_scope x t n) x t p ia u (n :: u :: r) a ps d0 d l f Sx K Fx Mx Kt) as (v & j & G & Hj & R).
  { apply N.le_refl. } { rewrite Tt. apply rthr_mono in Rx. eapply N.le_trans; [|exact Rx]. vm_compute. discriminate. }
  { intros H; exact H. } { rewrite Tt; discriminate. } { rewrite Tt; discriminate. } { rewrite Tt; discriminate. }
  { intros H. apply returns_right in H. unfold PRIMARY in Rx. clear - H Rx. lia. }
  exists (N_Colon2 n v (name n)), (S j). split; [|split].
  - constructor; try reflexivity; try exact I; [apply stands_colon2; exact (g_stands _ _ _ G)|symmetry; apply integer_tag; reflexivity|exists n, v; reflexivity|discriminate].
  - cbn [text]. rewrite app_length. cbn [length]. clear - Hj. lia.
  - cbn [text after]. rewrite rev_app_distr. cbn [rev app]. rewrite <- !app_assoc. cbn [app].
    refine (reach_round m p ia j _ v _ t (n :: u :: r) (p :: ps) (d0 :: d) _ f (parse_constant_resolution_expression E F) _ _ _ ps p (d0 :: d) _ f R _ _ _ _).
    + apply okf_valid. exact Kt.
    + apply higher; [exact Kt|exact (g_plain _ _ _ G)|rewrite Tt; discriminate|rewrite Tt; discriminate|].
      rewrite Tt. pose proof (f_left _ _ _ _ _ _ K) as L. cbn [left] in L. eapply N.lt_le_trans; [exact L|].
      cbn [level]. clear. unfold lthr. repeat match goal with |- context [?a <=? ?b] => destruct (N.leb_spec a b); try lia end.
    + unfold left_denotation. rewrite Tt, Wt. reflexivity.
    + unfold parse_constant_resolution_expression. run. unfold literal_string. rewrite Ln. reflexivity.
Qed.

(** *** Empty arrays and hashes *)
Lemma spine_empty_array t : Spine m (R_empty_array t).
Proof.
  intros p ia u r a ps d0 d l f Hm K. pose proof (f_fits _ _ _ _ _ _ K) as Hf. cbn [fits] in Hf. apply is_a_ty in Hf.
  exists (N_Array t []), 0%nat. split; [|split; [apply Nat.le_0_l|]].
  - apply good_ordinary; try reflexivity. apply (stands_array t [] []). constructor.
  - refine (reach_null m p ia a (t :: u :: r) (p :: ps) (d0 :: d) l f (parse_array E F) _ _ _ _).
    + cbn [hd]. rewrite Hf. reflexivity.
    + unfold parse_array. run. reflexivity.
Qed.
Lemma spine_empty_hash o c : Spine m (R_empty_hash o c).
Proof.
  intros p ia u r a ps d0 d l f Hm K. pose proof (f_fits _ _ _ _ _ _ K) as Hf. cbn [fits] in Hf.
  apply andb_true_iff in Hf as [Ho Hc]. apply is_a_ty in Ho, Hc.
  exists (N_Hash o false []), 0%nat. split; [|split; [apply Nat.le_0_l|]].
  - apply good_ordinary; try reflexivity. apply (stands_hash o [] []). constructor.
  - refine (reach_null m p ia a (o :: c :: u :: r) (p :: ps) (d0 :: d) l f (parse_hash E F) _ _ _ _).
    + cbn [hd]. rewrite Ho. reflexivity.
    + unfold parse_hash. run. reflexivity.
Qed.

(** *** Modifiers *)
Lemma spine_modifier x k c : Spine m x -> Spine m (R_modifier x k c).
Proof.
  intros Sx p ia u r a ps d0 d l f Hm K. pose proof (f_fits _ _ _ _ _ _ K) as Hf.
  cbn [fits] in Hf. apply andb_true_iff in Hf as [Hf Gx]. apply andb_true_iff in Hf as [Hf Ac]. apply andb_true_iff in Hf as [Hf Fc].
  apply andb_true_iff in Hf as [Hf Ax]. apply andb_true_iff in Hf as [Tk Fx]. unfold at_least in Ax. apply andb_true_iff in Ax as [_ Rx]. apply N.leb_le in Rx.
  assert (T : ty k = T_IfKeyword \/ ty k = T_UnlessKeyword \/ ty k = T_WhileKeyword \/ ty k = T_UntilKeyword)
    by (clear - Tk; repeat (apply orb_true_iff in Tk as [Tk|Tk]); apply is_a_ty in Tk; auto).
  cbn [text] in Hm. rewrite app_length in Hm. cbn [length] in Hm.
  assert (Mx : (length (text x) <= m)%nat) by (clear - Hm; lia).
  assert (Mc : (length (text c) < m)%nat) by (clear - Hm; pose proof (text_pos x); lia).
  assert (Tf : okf k = true /\ (forall b, level (ty k) b = 6) /\ ty k <> T_DoKeyword /\ ty k <> T_Comma /\ ty k <> T_HashRocket /\ ty k <> T_LCurlyBrace
    /\ is_end_of_expression (ty k) = true /\ is_valid (ty k) = true /\ forall pk v p0, left_denotation E F k pk v p0 = Some (parse_modifier_expression E)).
  { clear - T. unfold okf, left_denotation. destruct T as [T|[T|[T|T]]]; rewrite T; repeat split; discriminate. }
  destruct Tf as (Kk & Lk & T1 & T2 & T3 & T4 & T5 & T6 & T7).
  pose proof (f_right _ _ _ _ _ _ K) as R0. cbn [right number] in R0. change (rthr 0) with 0 in R0.
  destruct (left_operand m (R_modifier x k c) x k p ia u (text c ++ u :: r) a ps d0 d l f Sx K Fx Mx Kk) as (v & j & G & Hj & R).
  { cbn [left]. apply N.le_0_l. } { rewrite Lk. apply rthr_mono in Rx. eapply N.le_trans; [|exact Rx]. vm_compute. discriminate. }
  { intros H; cbn [shallow]; rewrite H; reflexivity. } { exact T1. } { exact T2. } { exact T3. } { intros _. exact T5. }
  destruct (operand m IH (R_modifier x k c) c p ia u r (k :: rev (text x) ++ a) (p :: ps) d0 d l (after l x) f LOWEST K Fc Mc (lthr_pos _)) as (w & Gc & V).
  { exact R0. } { discriminate. } { apply N.le_0_l. } { intros H; cbn [shallow]; rewrite H, orb_true_r; reflexivity. }
  { intros H. rewrite H in R0. exfalso. apply N.le_0_r in R0. discriminate R0. } { intros H; exact H. } { reflexivity. }
  set (first := match x with R_begin _ _ _ _ _ _ => false | _ => true end).
  set (z := match ty k with T_IfKeyword => N_If k w v (N_Nil k) | T_UnlessKeyword => N_If k w (N_Nil k) v
     | T_UntilKeyword => N_Until k w (k, [v]) first | _ => N_While k w (k, [v]) first end).
  assert (Ff : negb (n_shape v =? 3) = first).
  { rewrite (g_shape _ _ _ G). unfold shape, first. clear - Gx. destruct x; cbn [plain_string only_code rescued]; try reflexivity.
    - destruct (ttype_eqb (ty t) T_String); reflexivity.
    - apply negb_true_iff in Gx. rewrite Gx. destruct (plain_string x), (only_code x); reflexivity.
    - match goal with |- negb ((if ?a then _ else if ?b then _ else _) =? _) = _ => destruct a, b; reflexivity end. }
  exists z, (S j). split; [|split].
  - assert (Z : stands z (modified first (ty k) (meaning l x) (meaning (after l x) c)) /\ is_numeric z = false /\ fixnum z = None /\ plain z = true
      /\ integer (modified first (ty k) (meaning l x) (meaning (after l x) c)) = None).
    { pose proof (g_stands _ _ _ G) as S1. pose proof (g_stands _ _ _ Gc) as S2. clear - S1 S2 T. unfold z, modified.
      destruct T as [T|[T|[T|T]]]; rewrite T; (split; [|repeat split; try (apply integer_tag; reflexivity)]).
      - apply stands_if; try assumption. apply stands_nil.
      - apply stands_if; try assumption. apply stands_nil.
      - apply (stands_while k w k [v] _ _ [meaning l x]); [assumption|]. constructor; [assumption|constructor].
      - apply (stands_until k w k [v] _ _ [meaning l x]); [assumption|]. constructor; [assumption|constructor]. }
    destruct Z as (Z1 & Z2 & Z3 & Z4 & Z5). apply good_ordinary; try assumption; try reflexivity; [cbn [meaning]; fold first; rewrite Z5; exact Z3|].
    unfold z. destruct T as [T|[T|[T|T]]]; rewrite T; reflexivity.
  - cbn [text]. rewrite app_length. cbn [length]. clear - Hj. lia.
  - cbn [text after]. rewrite rev_app_distr. cbn [rev]. rewrite <- !app_assoc. cbn [app].
    refine (reach_round m p ia j _ v _ k (text c ++ u :: r) (p :: ps) (d0 :: d) _ f (parse_modifier_expression E) _ _ _ ps p (d0 :: d) _ f R T6 _ (T7 _ _ _) _).
    + apply higher; [exact Kk|exact (g_plain _ _ _ G)|exact T1|exact T4|].
      rewrite Lk. eapply N.lt_le_trans; [exact (f_left _ _ _ _ _ _ K)|]. vm_compute. discriminate.
    + pose proof (plain_modifier k v (g_plain _ _ _ G)) as Pm. unfold parse_modifier_expression. run1. cbv zeta. rewrite Pm, Ff. unfold z. clear - V T.
      destruct T as [T|[T|[T|T]]]; rewrite T; run1; rewrite (bind_ok _ _ _ _ _ V); reflexivity.
Qed.

(** *** Jumps *)
Lemma begins_ok t : begins_argument t = true ->
  is_end_of_expression (ty t) = false /\ ttype_eqb (ty t) T_LParen = false /\ can_be_first_arg_of_implicit_call (ty t) = true.
Proof. unfold begins_argument, is_a. destruct (ty t); cbn; try discriminate; repeat split. Qed.
Lemma spine_jump k v : Spine m (R_jump k v).
Proof.
  intros p ia u r a ps d0 d l f Hm K. pose proof (f_fits _ _ _ _ _ _ K) as Hf. pose proof (f_tok _ _ _ _ _ _ K) as Ku.
  cbn [fits] in Hf.
  pose proof (f_right _ _ _ _ _ _ K) as R0. change (level (ty u) false <= 7) in R0.
  assert (Tu : ttype_eqb (ty u) T_Comma = false /\ ttype_eqb (ty u) T_HashRocket = false /\ ty u <> T_DoKeyword).
  { pose proof (f_comma _ _ _ _ _ _ K) as C. pose proof (f_do _ _ _ _ _ _ K) as D. clear - C D. cbn [right block_head] in *. unfold COMMAND in *.
    split; [|split].
    - apply eqb_diff. intros H. specialize (C (or_introl H)). lia.
    - apply eqb_diff. intros H. specialize (C (or_intror H)). lia.
    - intros H. destruct (D H) as [[_ X]|X]; [lia|discriminate X]. }
  destruct Tu as (Tu1 & Tu2 & Tu3).
  destruct v as [e|].
  - apply andb_true_iff in Hf as [Hf Be]. apply andb_true_iff in Hf as [Hf Ae]. apply andb_true_iff in Hf as [Tk Fe]. apply at_least_3 in Ae as (Le & Re & Ne).
    assert (T : ty k = T_ReturnKeyword \/ ty k = T_BreakKeyword \/ ty k = T_NextKeyword)
      by (clear - Tk; repeat (apply orb_true_iff in Tk as [Tk|Tk]); apply is_a_ty in Tk; auto).
    cbn [text length] in Hm. assert (Me : (length (text e) < m)%nat) by (clear - Hm; lia).
    assert (He : hd k (text e) = head e) by (unfold head; destruct (text_some e) as (? & ? & ->); reflexivity). rewrite He in Be. clear He.
    destruct (begins_ok _ Be) as (B1 & B2 & B3).
    destruct (operand m IH (R_jump k (Some e)) e p ia u r (k :: a) (p :: ps) d0 d l l f BARE_CALL_ARG K Fe Me) as (w & G & V).
    { apply lthr3 in Le. eapply N.lt_le_trans; [|exact Le]. reflexivity. } { eapply N.le_trans; [exact R0|]. vm_compute. discriminate. } { discriminate. }
    { cbn [right]. unfold COMMAND, ARGUMENT in *. clear - Re. lia. } { intros H; exact H. } { intros H. rewrite H in Tu1. discriminate Tu1. }
    { rewrite Ne. discriminate. } { reflexivity. }
    set (z := if ttype_eqb (ty k) T_ReturnKeyword then N_Return k w else if ttype_eqb (ty k) T_BreakKeyword then N_Break k (Some w) else N_Next k (Some w)).
    exists z, 0%nat. split; [|split; [apply Nat.le_0_l|]].
    + assert (Z : stands z (meaning l (R_jump k (Some e))) /\ is_numeric z = false /\ fixnum z = None /\ plain z = true
        /\ integer (meaning l (R_jump k (Some e))) = None).
      { pose proof (g_stands _ _ _ G) as S1. pose proof (plain_not_nil _ (g_plain _ _ _ G)) as S2. clear - S1 S2 T. unfold z. cbn [meaning].
        destruct T as [T|[T|T]]; rewrite T; (split; [|repeat split; try (apply integer_tag; reflexivity)]).
        - apply stands_return; assumption.
        - apply stands_break; assumption.
        - apply stands_next; assumption. }
      destruct Z as (Z1 & Z2 & Z3 & Z4 & Z5). apply good_ordinary; try assumption; try reflexivity; [rewrite Z5; exact Z3|].
      unfold z. destruct T as [T|[T|T]]; rewrite T; reflexivity.
    + cbn [text after app rev]. rewrite <- app_assoc.
      assert (J : parse_jump_arg E F k (PState (k :: a) (text e ++ u :: r) (p :: ps) (d0 :: d) l f) =
         POk (Some w) (PState (rev (text e) ++ k :: a) (u :: r) (p :: ps) (d0 :: d) (after l e) f)).
      { unfold parse_jump_arg. run1. rewrite B2, B3. rewrite (bind_ok _ _ _ _ _ V). run1. rewrite Tu1. reflexivity. }
      destruct T as [T|[T|T]].
      * refine (reach_null m p ia a (k :: text e ++ u :: r) (p :: ps) (d0 :: d) l f (parse_return E F) _ _ _ _); [cbn [hd]; rewrite T; reflexivity|].
        unfold parse_return. run1. run1. run1. rewrite B1, (bind_ok _ _ _ _ _ V), plain_key by exact (g_plain _ _ _ G).
        run1. rewrite Tu2, Tu1. unfold z. rewrite T. reflexivity.
      * refine (reach_null m p ia a (k :: text e ++ u :: r) (p :: ps) (d0 :: d) l f (parse_break E F) _ _ _ _); [cbn [hd]; rewrite T; reflexivity|].
        unfold parse_break. run1. run1. rewrite (bind_ok _ _ _ _ _ J). unfold z. rewrite T. reflexivity.
      * refine (reach_null m p ia a (k :: text e ++ u :: r) (p :: ps) (d0 :: d) l f (parse_next E F) _ _ _ _); [cbn [hd]; rewrite T; reflexivity|].
        unfold parse_next. run1. run1. rewrite (bind_ok _ _ _ _ _ J). unfold z. rewrite T. reflexivity.
  - assert (T : ty k = T_ReturnKeyword \/ ty k = T_BreakKeyword \/ ty k = T_NextKeyword \/ ty k = T_RedoKeyword \/ ty k = T_RetryKeyword)
      by (clear - Hf; repeat (apply orb_true_iff in Hf as [Hf|Hf]); apply is_a_ty in Hf; auto).
    set (z := match ty k with T_ReturnKeyword => N_Return k (N_Nil k) | T_BreakKeyword => N_Break k None | T_NextKeyword => N_Next k None
              | T_RedoKeyword => N_Redo k | _ => N_Retry k end).
    assert (J : parse_jump_arg E F k (PState (k :: a) (u :: r) (p :: ps) (d0 :: d) l f) = POk None (PState (k :: a) (u :: r) (p :: ps) (d0 :: d) l f)).
    { unfold parse_jump_arg. run1. rewrite (okf_not T_LParen u eq_refl Ku).
      assert (X : can_be_first_arg_of_implicit_call (ty u) = false).
      { clear - Ku R0 Tu3. apply andb_true_iff in Ku as [Ku _]. destruct (ty u); try discriminate Ku; try reflexivity; exfalso; first [apply Tu3; reflexivity|apply R0; reflexivity]. }
      rewrite X. reflexivity. }
    exists z, 0%nat. split; [|split; [apply Nat.le_0_l|]].
    + assert (Z : stands z (meaning l (R_jump k None)) /\ is_numeric z = false /\ fixnum z = None /\ plain z = true
        /\ integer (meaning l (R_jump k None)) = None).
      { clear - T. unfold z. cbn [meaning]. destruct T as [T|[T|[T|[T|T]]]]; rewrite T; (split; [|repeat split; try (apply integer_tag; reflexivity)]).
        - apply stands_return_nil.
        - apply stands_break0.
        - apply stands_next0.
        - apply stands_redo.
        - apply stands_retry. }
      destruct Z as (Z1 & Z2 & Z3 & Z4 & Z5). apply good_ordinary; try assumption; try reflexivity.
      unfold z. destruct T as [T|[T|[T|[T|T]]]]; rewrite T; reflexivity.
    + cbn [text after app rev].
      destruct T as [T|[T|[T|[T|T]]]].
      * refine (reach_null m p ia a (k :: u :: r) (p :: ps) (d0 :: d) l f (parse_return E F) _ _ _ _); [cbn [hd]; rewrite T; reflexivity|].
        assert (X : is_end_of_expression (ty u) = true) by (apply (f_return _ _ _ _ _ _ K); cbn [returns]; unfold is_a; rewrite T; reflexivity).
        unfold parse_return. run1. run1. run1. rewrite X. run1. cbn [node_is_symbol_key].
        run1. rewrite Tu2, Tu1. unfold z. rewrite T. reflexivity.
      * refine (reach_null m p ia a (k :: u :: r) (p :: ps) (d0 :: d) l f (parse_break E F) _ _ _ _); [cbn [hd]; rewrite T; reflexivity|].
        unfold parse_break. run1. run1. rewrite (bind_ok _ _ _ _ _ J). unfold z. rewrite T. reflexivity.
      * refine (reach_null m p ia a (k :: u :: r) (p :: ps) (d0 :: d) l f (parse_next E F) _ _ _ _); [cbn [hd]; rewrite T; reflexivity|].
        unfold parse_next. run1. run1. rewrite (bind_ok _ _ _ _ _ J). unfold z. rewrite T. reflexivity.
      * refine (reach_null m p ia a (k :: u :: r) (p :: ps) (d0 :: d) l f parse_redo _ _ _ _); [cbn [hd]; rewrite T; reflexivity|].
        unfold parse_redo. run1. run1. unfold z. rewrite T. reflexivity.
      * refine (reach_null m p ia a (k :: u :: r) (p :: ps) (d0 :: d) l f parse_retry _ _ _ _); [cbn [hd]; rewrite T; reflexivity|].
        unfold parse_retry. run1. run1. unfold z. rewrite T. reflexivity.
Qed.

(** *** Aliases *)
Lemma reinsert_none k a r ps d l f : can_precede_collapsible_newline (ty k) = false ->
  reinsert_collapsed_newline (PState (k :: a) r ps d l f) = POk tt (PState (k :: a) r ps d l f).
Proof. intros H. unfold reinsert_collapsed_newline, bind, prev. cbn [p_prev hd]. rewrite H. reflexivity. Qed.
Lemma aliased_quiet t : aliased t = true -> can_precede_collapsible_newline (ty t) = false.
Proof. unfold aliased. destruct (ty t); try discriminate; reflexivity. Qed.
Lemma alias_arg_run msg t a r ps d l f : aliased t = true -> exists v, stands v (sx "lit" [SSym (name t)]) /\
  parse_alias_arg E F msg (PState a (t :: r) ps d l f) = POk v (PState (t :: a) r ps d l f).
Proof.
  intros H. exists (N_Symbol t (name t)). split; [apply stands_symbol|].
  unfold aliased in H. unfold parse_alias_arg. run1. unfold name.
  destruct (ty t) eqn:T; try discriminate H; unfold named in H; destruct (lit t) as [s|] eqn:L; try discriminate H.
  all: unfold parse_method_name, parse_symbol; repeat run1; rewrite ?T; unfold literal_string; rewrite L; repeat run1; reflexivity.
Qed.
Lemma spine_alias k x y : Spine m (R_alias k x y).
Proof.
  intros p ia u r a ps d0 d l f Hm K. pose proof (f_fits _ _ _ _ _ _ K) as Hf.
  cbn [fits] in Hf. apply andb_true_iff in Hf as [Tk Hf]. apply is_a_ty in Tk.
  apply orb_true_iff in Hf as [Hf|Hf].
  - apply andb_true_iff in Hf as [Hf Ny]. apply andb_true_iff in Hf as [Hf Ty]. apply andb_true_iff in Hf as [Tx Nx].
    apply is_a_ty in Tx. apply is_a_ty in Ty.
    exists (N_Valias k (name x) (name y)), 0%nat. split; [|split; [apply Nat.le_0_l|]].
    + assert (M : meaning l (R_alias k x y) = sx "valias" [SSym (name x); SSym (name y)]) by (cbn [meaning]; rewrite Tx; reflexivity).
      apply good_ordinary; try reflexivity; rewrite M; [apply stands_valias|reflexivity].
    + cbn [text after app rev].
      refine (reach_null m p ia a (k :: x :: y :: u :: r) (p :: ps) (d0 :: d) l f (parse_alias E F) _ _ _ _); [cbn [hd]; rewrite Tk; reflexivity|].
      unfold named in Nx, Ny. destruct (lit x) as [sx|] eqn:Lx; [|discriminate Nx]. destruct (lit y) as [sy|] eqn:Ly; [|discriminate Ny].
      unfold parse_alias. run1. run1. run1. rewrite Tx. unfold parse_valias_arg. repeat run1. rewrite Tx. unfold literal_string at 1. rewrite Lx.
      repeat run1. rewrite Ty. unfold literal_string. rewrite Ly. repeat run1.
      rewrite (bind_ok _ _ _ _ _ (reinsert_none y _ _ _ _ _ _ ltac:(rewrite Ty; reflexivity))). unfold name. rewrite Lx, Ly. reflexivity.
  - apply andb_true_iff in Hf as [Ax Ay].
    destruct (alias_arg_run "alias new name (first argument)" x (k :: a) (y :: u :: r) (p :: ps) (d0 :: d) l f Ax) as (vx & Sx & Rx).
    destruct (alias_arg_run "alias existing name (second argument)" y (x :: k :: a) (u :: r) (p :: ps) (d0 :: d) l f Ay) as (vy & Sy & Ry).
    assert (G : ttype_eqb (ty x) T_GlobalVariable = false) by (clear - Ax; unfold aliased in Ax; destruct (ty x); try discriminate Ax; reflexivity).
    exists (N_Alias k vx vy), 0%nat. split; [|split; [apply Nat.le_0_l|]].
    + assert (M : meaning l (R_alias k x y) = sx "alias" [sx "lit" [SSym (name x)]; sx "lit" [SSym (name y)]]) by (cbn [meaning]; rewrite G; reflexivity).
      apply good_ordinary; try reflexivity; rewrite M; [apply stands_alias; assumption|reflexivity].
    + cbn [text after app rev].
      refine (reach_null m p ia a (k :: x :: y :: u :: r) (p :: ps) (d0 :: d) l f (parse_alias E F) _ _ _ _); [cbn [hd]; rewrite Tk; reflexivity|].
      unfold parse_alias. run1. run1. run1.
      assert (B : forall A (q : A) z, match ty x with T_GlobalVariable | T_BackRef | T_NthRef => q | _ => z end = z)
        by (clear - Ax; intros; unfold aliased in Ax; destruct (ty x); try discriminate Ax; reflexivity).
      rewrite B, (bind_ok _ _ _ _ _ Rx), (bind_ok _ _ _ _ _ Ry), (bind_ok _ _ _ _ _ (reinsert_none y _ _ _ _ _ _ (aliased_quiet _ Ay))). reflexivity.
Qed.
Lemma spine_undef k x : Spine m (R_undef k x).
Proof.
  intros p ia u r a ps d0 d l f Hm K. pose proof (f_fits _ _ _ _ _ _ K) as Hf.
  cbn [fits] in Hf. apply andb_true_iff in Hf as [Tk Ax]. apply is_a_ty in Tk.
  assert (Tu : ttype_eqb (ty u) T_Comma = false).
  { pose proof (f_comma _ _ _ _ _ _ K) as C. clear - C. cbn [right] in C. apply eqb_diff. intros H. specialize (C (or_introl H)). lia. }
  destruct (alias_arg_run "method name for undef" x (k :: a) (u :: r) (p :: ps) (d0 :: d) l f Ax) as (v & S & R).
  exists (N_Undef k [v]), 0%nat. split; [|split; [apply Nat.le_0_l|]].
  - apply good_ordinary; try reflexivity. apply stands_undef. exact S.
  - cbn [text after app rev].
    refine (reach_null m p ia a (k :: x :: u :: r) (p :: ps) (d0 :: d) l f (parse_undef E F) _ _ _ _); [cbn [hd]; rewrite Tk; reflexivity|].
    unfold parse_undef. run1. run1. rewrite (bind_ok _ _ _ _ _ R). run1. rewrite Tu.
    rewrite (bind_ok _ _ _ _ _ (reinsert_none x _ _ _ _ _ _ (aliased_quiet _ Ax))). reflexivity.
Qed.

End Forms.

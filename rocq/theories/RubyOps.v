(** * RubyOps: operators, assignments, modifiers and jumps

    [Spine] for the programs of SpecRuby made of one or two operands.  No code is modelled here. *)
From Coq Require Import Strings.String NArith ZArith Bool List Lia.
From Verif Require Import Base Token Node ParserBase ParserModel Sexp SpecRuby RubyTransform RubyNodes RubyBase RubyRun RubyBody RubyExpr.
Import ListNotations.
Open Scope N_scope.
Open Scope list_scope.

(** ** Tables *)
Lemma binary_table x n : binary_level x = Some n ->
  follows x = true /\ (forall b, level x b = level x true) /\ lthr n <= level x true /\ rthr n <= level x true /\
  x <> T_DoKeyword /\ x <> T_LCurlyBrace /\ x <> T_Comma /\ x <> T_HashRocket /\ x <> T_ConstantResolution /\ x <> T_LBracket.
Proof.
  destruct x; cbn [binary_level]; try discriminate; intros H; injection H as <-; cbn [level];
  (split; [reflexivity|]); (split; [reflexivity|]); (split; [vm_compute; discriminate|]); (split; [vm_compute; discriminate|]);
  repeat split; discriminate.
Qed.
Lemma binary_left x n r : binary_level x = Some n ->
  match x with
  | T_StarStar | T_Comparison | T_EqualEqual | T_EqualEqualEqual | T_NotEqual | T_Match => n <? r
  | T_DotDot | T_DotDotDot => 7 <=? r
  | _ => n <=? r
  end = true -> level x true <= rthr r.
Proof.
  destruct x; cbn [binary_level]; try discriminate; intros H; injection H as <-; intros H; bools; cbn [level]; clear - H;
  match type of H with ?a < _ => apply N.le_succ_l in H; apply rthr_mono in H; eapply N.le_trans; [|exact H]; vm_compute; discriminate
  | _ => apply rthr_mono in H; eapply N.le_trans; [|exact H]; vm_compute; discriminate end.
Qed.
Lemma binary_right x n r : binary_level x = Some n ->
  match x with
  | T_Comparison => 8 <? r | T_DotDot | T_DotDotDot => 7 <=? r | _ => n <? r
  end = true -> level x true < lthr r.
Proof.
  destruct x; cbn [binary_level]; try discriminate; intros H; injection H as <-; intros H; bools; cbn [level]; clear - H;
  match type of H with ?a < _ => apply N.le_succ_l in H; apply lthr_mono in H; eapply N.lt_le_trans; [|exact H]; vm_compute; reflexivity
  | _ => apply lthr_mono in H; eapply N.lt_le_trans; [|exact H]; vm_compute; reflexivity end.
Qed.

Definition unary_prec (x : ttype) : N := match x with T_NotKeyword => 21 | T_Minus => 32 | _ => 34 end.
Lemma unary_table t n : unary_level (ty t) = Some n ->
  get_precedence t None = unary_prec (ty t) /\ rthr n <= unary_prec (ty t) /\
  (forall r, (if is_a T_NotKeyword t then 7 <=? r else n <? r) = true -> unary_prec (ty t) < lthr r).
Proof.
  unfold get_precedence, is_a. destruct (ty t) eqn:Et; cbn [unary_level]; try discriminate; intros H; injection H as <-;
  (split; [reflexivity|]); (split; [vm_compute; discriminate|]); intros r H; change (ttype_eqb _ _) with true in H || change (ttype_eqb _ _) with false in H;
  cbv beta iota in H; bools; cbn [unary_prec]; clear - H;
  match type of H with ?a < _ => apply N.le_succ_l in H | _ => idtac end; apply lthr_mono in H; (eapply N.lt_le_trans; [|exact H]); vm_compute; reflexivity.
Qed.

Lemma ends_to x : starts x = false -> ttype_eqb T_Newline x = false -> ttype_eqb T_Semicolon x = false -> ends (fun t => ttype_eqb t x).
Proof. intros S A B. split; [exact A|]. split; [exact B|]. intros t H. apply starts_not; assumption. Qed.

Lemma meaning_unary l t e : meaning l (R_unary t e) = unary (ty t) (literal_number e) (meaning l e).
Proof. reflexivity. Qed.
Definition negate (v : node) : node :=
  match v with
  | N_Fixnum nt z => N_Fixnum nt (- z) | N_Float nt b s => N_Float nt (negb b) s
  | N_Bignum nt s => N_Bignum nt ("-"%ch :: s) | _ => v
  end.
Lemma negated_good l t x v : ty t = T_Minus -> is_number (ty x) = true ->
  match ty x with
  | T_Fixnum => v = N_Fixnum x (fix_ x) | T_Float => v = N_Float x false (dbl x) | T_Bignum => v = N_Bignum x (name x)
  | _ => True end -> good l (R_unary t (R_leaf x)) (negate v).
Proof.
  intros Et Nx H.
  assert (X : ty x = T_Fixnum \/ ty x = T_Float \/ ty x = T_Bignum) by (destruct (ty x); auto; discriminate Nx).
  assert (N : number (R_unary t (R_leaf x)) = true) by (cbn [number literal_number]; unfold is_a; rewrite Et, Nx; reflexivity).
  assert (M : meaning l (R_unary t (R_leaf x)) = negated (leaf l x)) by (rewrite meaning_unary; unfold unary; cbn [literal_number]; rewrite Et, Nx; cbv beta iota; reflexivity).
  unfold leaf in M.
  destruct X as [X|[X|X]]; rewrite X in H, M; subst v; (apply good_ordinary; [reflexivity|rewrite M|rewrite N; reflexivity|rewrite M; reflexivity|reflexivity|reflexivity]).
  - apply stands_fixnum.
  - apply stands_float.
  - apply stands_bignum.
Qed.
Lemma negate_run x v (minus : bool) (other : M node) s : is_number (ty x) = true ->
  match ty x with
      | T_Fixnum => (0 <=? fix_ x)%Z
      | T_Float | T_NilKeyword | T_TrueKeyword | T_FalseKeyword | T_SelfKeyword | T_NthRef | T_ENCODINGKeyword => true
      | T_BackRef => match lit x with Some [c] => negb (c =? 0) | _ => false end
      | T_Bignum => match lit x with Some (c :: _) => negb (c =? "-"%ch) | _ => false end
      | T_String | T_Symbol => match lit x with Some _ => true | None => false end
      | _ => named x
      end = true ->
  match ty x with
  | T_Fixnum => v = N_Fixnum x (fix_ x) | T_Float => v = N_Float x false (dbl x) | T_Bignum => v = N_Bignum x (name x)
  | _ => True end ->
  match v with
  | N_Bignum nt s =>
        if minus then
          if bignum_negative s then other else ret (N_Bignum nt ("-"%ch :: s))
        else ret v
  | N_Fixnum nt z =>
        if minus then if (z <? 0)%Z then other else ret (N_Fixnum nt (- z)) else ret v
  | N_Float nt neg s =>
        if minus then if float_negative neg s then other else ret (N_Float nt (negb neg) s)
        else ret v
  | _ => crash (PUnreachable "parser.cpp:2114")
  end s = POk (if minus then negate v else v) s.
Proof.
  intros Nx Hf H.
  assert (X : ty x = T_Fixnum \/ ty x = T_Float \/ ty x = T_Bignum) by (destruct (ty x); auto; discriminate Nx).
  destruct X as [X|[X|X]]; rewrite X in H, Hf; subst v; destruct minus; try reflexivity.
  - assert (Z0 : (fix_ x <? 0)%Z = false) by (apply Z.leb_le in Hf; apply Z.ltb_ge; exact Hf). rewrite Z0. reflexivity.
  - unfold name. destruct (lit x) as [[|c0 w]|]; try discriminate Hf. unfold bignum_negative. apply negb_true_iff in Hf. rewrite Hf. reflexivity.
Qed.

Section Operators.
Variable m : nat.
Hypothesis IH : Main m.
Notation E := (parse_expression m).
Notation F := (m + m + 2)%nat.

(** An expression with the token behind it given. *)
Lemma inner e k p' r a ps d0 d l f : fits l e = true -> (length (text e) < m)%nat -> p' < lthr (left e) -> okf k = true ->
  level (ty k) (number e) <= rthr (right e) -> level (ty k) (number e) <= p' -> (shallow e = true -> d0 = 0) ->
  ty k <> T_DoKeyword -> ty k <> T_Comma -> ty k <> T_HashRocket -> (returns e = true -> is_end_of_expression (ty k) = true) ->
  exists v, good l e v /\
    pexpr E p' (PState a (text e ++ k :: r) ps (d0 :: d) l f) =
    POk v (PState (rev (text e) ++ a) (k :: r) ps (d0 :: d) (after l e) f).
Proof.
  intros Hf Hm Hl Hk Hr Hp Hs T1 T2 T3 Hret. apply IH; [exact Hm| |exact Hp|contradiction].
  constructor; try assumption; try contradiction; try discriminate.
  - intros H. split; [apply Hs; exact H|reflexivity].
  - intros [H|H]; contradiction.
Qed.

Lemma comma_operand X p ia u d0 l : fit X p ia u d0 l -> (match X with R_assign _ _ _ | R_attr _ _ _ _ _ | R_element _ _ _ _ _ => False | _ => True end) ->
  ty u = T_Comma -> assigns X = false.
Proof.
  intros K N H. destruct (f_list _ _ _ _ _ _ K H) as [A|[_ A]]; [exact A|].
  destruct X; try contradiction; apply negb_true_iff; exact A.
Qed.

(** *** Parentheses *)
Lemma spine_group o e c : Spine m (R_group o e c).
Proof.
  intros p ia u r a ps d0 d l f Hm K. pose proof (f_fits _ _ _ _ _ _ K) as Hf. pose proof (f_tok _ _ _ _ _ _ K) as Ku.
  cbn [fits] in Hf. apply andb_true_iff in Hf as [Hf Hfe]. apply andb_true_iff in Hf as [Hf Hret]. apply andb_true_iff in Hf as [Ho Hc].
  apply is_a_ty in Ho, Hc. apply negb_true_iff in Hret.
  assert (Hm' : (length (text e) < m)%nat) by (clear - Hm; cbn [text length] in Hm; rewrite app_length in Hm; cbn [length] in Hm; lia).
  assert (Bt : body_text text ([], [(e, [])]) = text e) by (unfold body_text; cbn [fst snd flat_map app]; rewrite !app_nil_r; reflexivity).
  destruct (body_ok m IH None (fun t => ttype_eqb t T_RParen) ([], [(e, [])]) c (o :: a) (u :: r) (p :: ps) (d0 :: d) l f) as (t0 & vs & G & V).
  { rewrite Hc. reflexivity. } { unfold closer. rewrite Hc. reflexivity. } { rewrite Hc. reflexivity. } { apply ends_to; reflexivity. }
  { rewrite Bt. exact Hm'. } { reflexivity. } { unfold statements_fit. cbn [snd map_all forallb fst removelast andb]. rewrite Hfe, Hret. reflexivity. }
  cbn [snd goods] in G. destruct vs as [|v [|? ?]]; cbn in G; try tauto. destruct G as [G _].
  rewrite Bt in V. exists v, 0%nat. split; [|split; [apply Nat.le_0_l|]].
  - constructor; try exact Logic.I; try discriminate; try (destruct G; assumption).
    destruct v; try exact Logic.I. match goal with |- match ?x with _ => _ end => destruct x as [|[] []] end; try exact Logic.I. exact (inner_code_ok _ _ _ _ _ G).
  - pose proof (starts_head l e Hfe) as St.
    refine (reach_null m p ia a _ (p :: ps) (d0 :: d) l f (parse_group E F) v _ _ _); cbn [text app hd].
    + rewrite Ho. reflexivity.
    + unfold parse_group. run1. run1. rewrite <- app_assoc. cbn [app]. run1. rewrite (starts_not T_RParen _ eq_refl St).
      unfold parse_body_to. rewrite (bind_ok _ _ _ _ _ V). cbv zeta. run.
      rewrite (okf_not T_Equal u eq_refl Ku). cbn [andb block_or_only]. rewrite plain_group by exact (g_plain _ _ _ G).
      cbn [rev]. rewrite rev_app_distr. cbn [rev app]. rewrite <- ?app_assoc. reflexivity.
Qed.

(** *** Unary operators *)
Lemma spine_unary t e : Spine m (R_unary t e).
Proof.
  intros p ia u r a ps d0 d l f Hm K. pose proof (f_fits _ _ _ _ _ _ K) as Hf.
  cbn [fits] in Hf. apply andb_true_iff in Hf as [Hfe Hf]. destruct (unary_level (ty t)) as [n|] eqn:En; [|discriminate Hf].
  apply andb_true_iff in Hf as [Hf Hn]. apply andb_true_iff in Hf as [Hl Hr]. apply N.leb_le in Hr.
  destruct (unary_table t n En) as (Pr & Rn & Ln). specialize (Ln _ Hl).
  assert (Hm' : (length (text e) < m)%nat) by (clear - Hm; cbn [text length] in Hm; lia).
  destruct (operand m IH (R_unary t e) e p ia u r (t :: a) (p :: ps) d0 d l l f (unary_prec (ty t)) K Hfe Hm' Ln) as (v & G & V).
  { pose proof (f_right _ _ _ _ _ _ K) as R. eapply N.le_trans; [exact R|]. eapply N.le_trans; [|exact Rn]. apply rthr_mono. cbn [right]. rewrite En. cbn [level_of]. apply N.le_min_l. }
  { cbn [number]. intros H. apply andb_true_iff in H as [_ H]. destruct e; try discriminate H. exact H. }
  { cbn [right]. apply N.le_min_r. } { intros H; exact H. } { exact (comma_operand _ _ _ _ _ _ K I). } { intros H; exact H. } { reflexivity. }
  assert (St : starts (ty t) = true) by (destruct (ty t); discriminate En || reflexivity).
  assert (Cases : exists w, good l (R_unary t e) w /\ exists g, null_denotation E F (ty t) = Some g /\ g (PState a (t :: text e ++ u :: r) (p :: ps) (d0 :: d) l f) = POk w (PState (rev (text e) ++ t :: a) (u :: r) (p :: ps) (d0 :: d) (after l e) f)).
  { destruct (ttype_eqb (ty t) T_Not || ttype_eqb (ty t) T_NotKeyword) eqn:Enot.
    - exists (N_Not t v). split.
      + apply good_ordinary; try reflexivity.
        * rewrite meaning_unary. unfold unary. destruct (ty t); try discriminate Enot; apply stands_not; exact (g_stands _ _ _ G).
        * cbn [number is_numeric]. unfold is_a. destruct (ty t); try discriminate Enot; reflexivity.
        * rewrite meaning_unary. unfold unary. destruct (ty t); try discriminate Enot; symmetry; apply integer_tag; reflexivity.
      + exists (parse_not E). split; [destruct (ty t); try discriminate Enot; reflexivity|].
        unfold parse_not. run1. run1. rewrite Pr, (bind_ok _ _ _ _ _ V). reflexivity.
    - set (minus := ttype_eqb (ty t) T_Minus).
      destruct ((minus || ttype_eqb (ty t) T_Plus) && is_numeric v) eqn:Enum.
      + (* a number with a sign *)
        apply andb_true_iff in Enum as [Esign Env].
        assert (Lit : literal_number e = true).
        { rewrite (g_number _ _ _ G) in Env. unfold is_a in Hn. subst minus. rewrite Esign in Hn. cbn [negb orb] in Hn.
          rewrite Env in Hn. cbn [negb] in Hn. rewrite orb_false_r in Hn. exact Hn. }
        assert (Lx : exists x, e = R_leaf x) by (destruct e; try discriminate Lit; eexists; reflexivity). destruct Lx as (x & ->). cbn [literal_number] in Lit.
        cbn [fits] in Hfe. apply andb_true_iff in Hfe as [_ Hfe]. pose proof (g_literal _ _ _ G) as Gl. cbn [text app length] in *.
        pose proof (g_stands _ _ _ G) as Gs. cbn [meaning] in Gs. unfold leaf in Gs.
        assert (Min : minus = true -> ty t = T_Minus) by (apply eqb_eq).
        assert (Plus : minus = false -> ty t = T_Plus) by (intros X; rewrite X in Esign; apply eqb_eq; exact Esign).
        assert (Num : forall w, is_numeric w = true -> is_numeric w = number (R_unary t (R_leaf x))).
        { intros w ->. cbn [number literal_number]. rewrite Lit. unfold is_a. subst minus. rewrite Esign. reflexivity. }
        exists (if minus then negate v else v). split.
        * destruct minus eqn:Em.
          -- pose proof (Min eq_refl) as Mt.
             exact (negated_good l t x v Mt Lit Gl).
          -- pose proof (Plus eq_refl) as Mt.
             apply good_ordinary; [reflexivity| |apply Num; exact Env| |exact (g_plain _ _ _ G)|rewrite (g_shape _ _ _ G); unfold shape; cbn [plain_string only_code]; destruct (ty x); try discriminate Lit; reflexivity]; rewrite meaning_unary; unfold unary; cbn [literal_number]; rewrite Mt, Lit; cbv beta iota.
             ++ exact (g_stands _ _ _ G).
             ++ exact (g_fixnum _ _ _ G).
        * exists (parse_unary_operator E). split; [destruct (ty t); try discriminate En; try discriminate Enot; reflexivity|].
          unfold parse_unary_operator. run1. run1. rewrite Pr, (bind_ok _ _ _ _ _ V). cbv zeta. fold minus. rewrite Esign, Env. cbn [andb].
          refine (negate_run x v minus _ _ Lit Hfe Gl).
      + exists (N_UnaryOp t (s2l (match ty t with T_Minus => "-@" | T_Plus => "+@" | _ => "~" end)) v). 
        assert (Lit : (is_a T_Minus t || is_a T_Plus t) && literal_number e = false).
        { unfold is_a. fold minus. destruct (minus || ttype_eqb (ty t) T_Plus); [|reflexivity]. cbn [andb] in *. rewrite (g_number _ _ _ G) in Enum. destruct e; try reflexivity. exact Enum. }
        split.
        * assert (M : meaning l (R_unary t e) = sx "call" [meaning l e; SSym (s2l (match ty t with T_Minus => "-@" | T_Plus => "+@" | _ => "~" end))]).
          { rewrite meaning_unary. unfold unary. unfold is_a in Lit. destruct (ty t); try discriminate En; try discriminate Enot; try reflexivity; cbn in Lit; rewrite Lit; reflexivity. }
          apply good_ordinary; try reflexivity; rewrite ?M.
          -- apply stands_unary. exact (g_stands _ _ _ G).
          -- cbn [number is_numeric]. rewrite Lit. reflexivity.
          -- symmetry. apply integer_tag. reflexivity.
        * exists (parse_unary_operator E). split; [destruct (ty t); try discriminate En; try discriminate Enot; reflexivity|].
          unfold parse_unary_operator. run1. run1. rewrite Pr, (bind_ok _ _ _ _ _ V). cbv zeta. fold minus. rewrite Enum.
          destruct (ty t); try discriminate En; try discriminate Enot; reflexivity. }
  destruct Cases as (w & Gw & g & Hg & Rg). exists w, 0%nat. split; [exact Gw|]. split; [apply Nat.le_0_l|].
  cbn [text app rev after]. rewrite <- app_assoc.
  exact (reach_null m p ia a (t :: text e ++ u :: r) (p :: ps) (d0 :: d) l f g w _ Hg Rg).
Qed.

(** *** Binary operators *)
Definition bin_node (t : token) (v w : node) : node :=
  match ty t with
  | T_AmpersandAmpersand | T_AndKeyword => make_and t v w
  | T_PipePipe | T_OrKeyword => make_or t v w
  | T_DotDot | T_DotDotDot => N_Range t v w (ttype_eqb (ty t) T_DotDotDot)
  | T_Match => N_Call t v (s2l "=~") [w]
  | _ => N_InfixOp t v (s2l (operator (ty t))) w
  end.
Lemma bin_stands t n v w mv mw : binary_level (ty t) = Some n -> stands v mv -> stands w mw ->
  fixnum v = integer mv -> fixnum w = integer mw -> stands (bin_node t v w) (binary (ty t) mv mw).
Proof.
  intros En Sv Sw Fv Fw. unfold bin_node, binary.
  destruct (ty t); try discriminate En; try (apply stands_and; assumption); try (apply stands_or; assumption);
    try (apply stands_infix; assumption).
  - apply stands_range; assumption.
  - apply stands_range; assumption.
  - apply stands_call; [assumption|]. constructor; [assumption|constructor].
Qed.
Lemma bin_kind t v w : is_numeric (bin_node t v w) = false /\ fixnum (bin_node t v w) = None /\ plain (bin_node t v w) = true /\ n_shape (bin_node t v w) = 0.
Proof.
  unfold bin_node. destruct (ty t); try apply and_kind; try apply or_kind; repeat split.
Qed.
Lemma bin_integer x a b : integer (binary x a b) = None.
Proof.
  unfold binary, both. destruct x; try (apply integer_tag; reflexivity);
  (destruct (integer a); [destruct (integer b)|]; try (apply integer_tag; reflexivity); reflexivity).
Qed.
Lemma run_binary t n v w b p0 a r ps d l f s' : binary_level (ty t) = Some n -> plain v = true -> plain w = true ->
  (ambiguous (ty t) && tk_ws t = true -> tk_ws (hd no_token b) = true) ->
  starts (ty (hd no_token b)) = true ->
  pexpr E (level (ty t) true) (PState (t :: a) (b ++ r) ps d l f) = POk w s' ->
  exists g, left_denotation E F t (hd no_token (b ++ r)) v p0 = Some g /\ g v (PState a (t :: b ++ r) ps d l f) = POk (bin_node t v w) s'.
Proof.
  intros En Pv Pw Amb St V.
  assert (Hb : hd no_token (b ++ r) = hd no_token b) by (destruct b; [discriminate St|reflexivity]).
  rewrite Hb.
  assert (Inf : get_precedence t (Some v) = level (ty t) true -> type_value (ty t) = Some (s2l (operator (ty t))) ->
    parse_infix_expression E v (PState a (t :: b ++ r) ps d l f) = POk (N_InfixOp t v (s2l (operator (ty t))) w) s').
  { intros Hp Ht. unfold parse_infix_expression. run1. run1. rewrite Hp, (bind_ok _ _ _ _ _ V). unfold type_name. rewrite Ht. reflexivity. }
  assert (Rng : parse_range_expression E v (PState a (t :: b ++ r) ps d l f) =
     bind (pexpr E RANGE) (fun r => ret (N_Range t v r (ttype_eqb (ty t) T_DotDotDot))) (PState (t :: a) (b ++ r) ps d l f)).
  { unfold parse_range_expression. run1. run1. rewrite run_no_skip by (rewrite Hb; apply starts_line; exact St).
    change (bind cur ?h (PState (t :: a) (b ++ r) ps d l f)) with (h (hd no_token (b ++ r)) (PState (t :: a) (b ++ r) ps d l f)). cbv beta.
    rewrite Hb. assert (X : can_be_range_arg_token (ty (hd no_token b)) = true) by (clear - St; destruct (ty (hd no_token b)); (reflexivity || discriminate)).
    rewrite X. reflexivity. }
  unfold left_denotation, bin_node in *. cbv zeta.
  assert (Sum : ty t = T_Plus \/ ty t = T_Minus -> negb (tk_ws t) || tk_ws (hd no_token b) || negb (is_callable v) = true).
  { intros H. destruct (tk_ws t); [|reflexivity]. cbn [negb orb]. rewrite Amb; [reflexivity|]. destruct H as [-> | ->]; reflexivity. }
  destruct (ty t) eqn:Et; try discriminate En;
  try (eexists; split; [reflexivity|apply Inf; [unfold get_precedence; rewrite Et; reflexivity|reflexivity]]);
  try (rewrite Sum by auto; eexists; split; [reflexivity|apply Inf; [unfold get_precedence; rewrite Et; reflexivity|reflexivity]]);
  try (eexists; split; [reflexivity|]; unfold parse_logical_expression; run1; rewrite Et; run1; change (level _ true) with COMPOSITION in V; rewrite (bind_ok _ _ _ _ _ V); reflexivity);
  try (eexists; split; [reflexivity|]; unfold parse_logical_expression; run1; rewrite Et; run1; change (level _ true) with LOGICAL_AND in V; rewrite (bind_ok _ _ _ _ _ V); reflexivity);
  try (eexists; split; [reflexivity|]; unfold parse_logical_expression; run1; rewrite Et; run1; change (level _ true) with LOGICAL_OR in V; rewrite (bind_ok _ _ _ _ _ V); reflexivity);
  try (eexists; split; [reflexivity|]; etransitivity; [exact Rng|]; change (level _ true) with RANGE in V; rewrite (bind_ok _ _ _ _ _ V); reflexivity).
  - eexists; split; [reflexivity|]. unfold parse_match_expression. run1. run1. change (level _ true) with EQUALITY in V.
    rewrite (bind_ok _ _ _ _ _ V). rewrite plain_match by assumption. reflexivity.
Qed.

Lemma spine_binary x t y : Spine m x -> Spine m (R_binary x t y).
Proof.
  intros Sx p ia u r a ps d0 d l f Hm K. pose proof (f_fits _ _ _ _ _ _ K) as Hf.
  cbn [fits] in Hf. apply andb_true_iff in Hf as [Hf Hb]. apply andb_true_iff in Hf as [Hfx Hfy].
  destruct (binary_level (ty t)) as [n|] eqn:En; [|discriminate Hb].
  apply andb_true_iff in Hb as [Hb Hret]. apply andb_true_iff in Hb as [Hb Hamb]. apply andb_true_iff in Hb as [Hb _].
  apply andb_true_iff in Hb as [Hr Hl]. apply negb_true_iff in Hret.
  destruct (binary_table _ _ En) as (Ff & Lb & Ln & Rn & T1 & T2 & T3 & T4 & T5 & T6).
  pose proof (binary_left _ _ _ En Hr) as Hr'. pose proof (binary_right _ _ _ En Hl) as Hl'. clear Hr Hl.
  cbn [text] in Hm. rewrite app_length in Hm. cbn [length] in Hm.
  assert (Mx : (length (text x) <= m)%nat) by (clear - Hm; lia).
  assert (My : (length (text y) < m)%nat) by (clear - Hm; pose proof (text_pos x); lia).
  assert (Kt : okf t = true) by (unfold okf; rewrite Ff; destruct (ty t); try reflexivity; contradiction).
  destruct (left_operand m (R_binary x t y) x t p ia u (text y ++ u :: r) a ps d0 d l f Sx K Hfx Mx Kt) as (v & k & G & Hk & R).
  { cbn [left]. apply N.le_min_r. } { rewrite Lb. exact Hr'. } { intros H; cbn [shallow]; rewrite H; reflexivity. }
  { exact T1. } { exact T3. } { exact T4. } { intros H. rewrite H in Hret. discriminate Hret. }
  destruct (operand m IH (R_binary x t y) y p ia u r (t :: rev (text x) ++ a) (p :: ps) d0 d l (after l x) f (level (ty t) true) K Hfy My Hl') as (w & Gy & V).
  { pose proof (f_right _ _ _ _ _ _ K) as Rk. eapply N.le_trans; [exact Rk|]. eapply N.le_trans; [|exact Rn]. apply rthr_mono. cbn [right]. rewrite En. cbn [level_of]. apply N.le_min_l. }
  { discriminate. } { cbn [right]. apply N.le_min_r. } { intros H; cbn [shallow]; rewrite H, orb_true_r; reflexivity. }
  { exact (comma_operand _ _ _ _ _ _ K I). } { intros H; exact H. } { reflexivity. }
  destruct (run_binary t n v w (text y) p (rev (text x) ++ a) (u :: r) (p :: ps) (d0 :: d) (after l x) f _ En (g_plain _ _ _ G) (g_plain _ _ _ Gy)
    ltac:(intros H; rewrite H in Hamb; destruct (text_some y) as (? & ? & Ey); rewrite Ey in Hamb |- *; exact Hamb)
    (starts_head _ _ Hfy) V) as (g & Hg & Rg).
  exists (bin_node t v w), (S k). split; [|split].
  - destruct (bin_kind t v w) as (B1 & B2 & B3 & B4). apply good_ordinary; [reflexivity| |exact B1| |exact B3|exact B4].
    + cbn [meaning]. eapply bin_stands; [exact En|destruct G; assumption|destruct Gy; assumption|destruct G; assumption|destruct Gy; assumption].
    + cbn [meaning]. rewrite bin_integer. exact B2.
  - cbn [text]. rewrite app_length. cbn [length]. clear - Hk. lia.
  - cbn [text after]. rewrite rev_app_distr. cbn [rev]. rewrite <- !app_assoc. cbn [app].
    refine (reach_round m p ia k _ v _ t (text y ++ u :: r) (p :: ps) (d0 :: d) _ f g _ _ _ ps p (d0 :: d) _ f R _ _ Hg Rg).
    + apply okf_valid. exact Kt.
    + apply higher; [exact Kt|exact (g_plain _ _ _ G)|exact T1|exact T2|].
      rewrite Lb. pose proof (f_left _ _ _ _ _ _ K) as L. cbn [left] in L. rewrite En in L. cbn [level_of] in L.
      eapply N.lt_le_trans; [exact L|]. eapply N.le_trans; [|exact Ln]. apply lthr_mono, N.le_min_l.
Qed.

End Operators.

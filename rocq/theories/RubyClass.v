(** * RubyClass: definitions of classes and modules, and every expression

    [Spine] for [class] and [module], and the conclusion: every expression of SpecRuby is
    parsed into a tree of its meaning.  No code is modelled here. *)
From Coq Require Import Strings.String NArith ZArith Bool List Lia.
From Verif Require Import Spec SpecLit SpecLexeme SpecText LexModel LexDeep LexText LexFine.
From Verif Require Import Base Token Node ParserBase ParserModel Sexp SpecRuby RubyTransform RubyNodes RubyBase RubyRun RubyBody RubyExpr RubyQuoted RubyOps RubyForms RubyArgs RubyCalls RubyBlock RubyCompound RubySet RubyDef RubyRescue.
Import ListNotations.
Open Scope N_scope.
Open Scope list_scope.

(** ** Paths *)
Lemma path_facts e : path e = true -> (forall l, fits l e = true) /\ (forall l, after l e = l) /\ (forall l, meaning l e = meaning [] e) /\
  left e = PRIMARY /\ right e = PRIMARY /\ number e = false /\ shallow e = false /\ assigns e = false /\ returns e = false /\ block_head e = match e with R_leaf _ => true | _ => false end.
Proof.
  induction e; cbn [path]; try discriminate; intros H.
  - apply andb_true_iff in H as [T N]. apply is_a_ty in T.
    cbn [fits after meaning left right number shallow assigns returns block_head].
    split; [intros l; rewrite T; exact N|]. split; [reflexivity|].
    split; [intros l; unfold leaf; rewrite T; reflexivity|]. rewrite T. repeat split; reflexivity.
  - apply andb_true_iff in H as [H N]. apply andb_true_iff in H as [H T2]. apply andb_true_iff in H as [H W]. apply andb_true_iff in H as [P T].
    destruct (IHe P) as (A & B & C & D1 & D2 & D3 & D4 & D5 & D6 & _).
    cbn [fits after meaning left right number shallow assigns returns block_head].
    split; [intros l; rewrite A, D2, T, W, T2, N; reflexivity|]. split; [intros l; apply B|]. split; [intros l; rewrite C; reflexivity|].
    repeat split; assumption || reflexivity.
  - apply andb_true_iff in H as [H N]. apply andb_true_iff in H as [T T2].
    cbn [fits after meaning left right number shallow assigns returns block_head].
    split; [intros l; rewrite T, T2, N; reflexivity|]. repeat split; reflexivity.
Qed.

Section Class.
Variable m : nat.
Hypothesis IH : Main m.
Notation E := (parse_expression m).
Notation F := (m + m + 2)%nat.

Lemma path_ok e q u r a ps d0 d f : path e = true -> q <= 23 -> (length (text e) < m)%nat ->
  (closer u = true \/ ty u = T_LessThan /\ q = 23) ->
  exists v, good [] e v /\ pexpr E q (PState a (text e ++ u :: r) ps (d0 :: d) [] f) = POk v (PState (rev (text e) ++ a) (u :: r) ps (d0 :: d) [] f).
Proof.
  intros P Q Hm Hu. destruct (path_facts e P) as (A & B & C & D1 & D2 & D3 & D4 & D5 & D6 & _).
  assert (Lu : level (ty u) false <= q /\ level (ty u) false <= 23 /\ okf u = true /\ ty u <> T_DoKeyword /\ ty u <> T_Comma /\ ty u <> T_HashRocket).
  { destruct Hu as [Cu|[T ->]].
    - rewrite closer_level by exact Cu. split; [apply N.le_0_l|]. split; [apply N.le_0_l|]. split; [apply closer_okf; exact Cu|].
      split; [|split]; (intros H; eapply closer_not; [exact Cu| |exact H]; reflexivity).
    - unfold okf. rewrite T. repeat split; discriminate. }
  destruct Lu as (L1 & L2 & Ku & N1 & N2 & N3).
  destruct (IH e q IA_CURLY_AND_BLOCK u r a ps d0 d [] f Hm) as (v & G & V).
  { constructor; try assumption.
    - rewrite D1. eapply N.le_lt_trans; [exact Q|reflexivity].
    - rewrite D2, D3. eapply N.le_trans; [exact L2|discriminate].
    - discriminate.
    - rewrite D4. discriminate.
    - intros X. contradiction.
    - intros [X|X]; contradiction.
    - intros X. contradiction.
    - rewrite D6. discriminate.
    - apply A. }
  { rewrite D3. exact L1. }
  { intros X. contradiction. }
  exists v. split; [exact G|]. rewrite B in V. exact V.
Qed.
Lemma path_name n v l : path n = true -> good [] n v -> name_stands v (match n with R_leaf t => SSym (name t) | _ => meaning l n end).
Proof.
  intros P G. destruct (path_facts n P) as (_ & _ & C & _). destruct n; try discriminate P.
  - cbn [path] in P. apply andb_true_iff in P as [T N]. apply is_a_ty in T. pose proof (g_leaf _ _ _ G) as V. cbv beta iota in V. rewrite V by (rewrite T; reflexivity).
    apply name_ident. apply named_ok. exact N.
  - destruct (g_path _ _ _ G) as (t1 & r1 & V). rewrite C. apply name_other; [rewrite V; discriminate|exact (g_stands _ _ _ G)].
  - destruct (g_path _ _ _ G) as (t1 & V). rewrite C. apply name_other; [rewrite V; discriminate|exact (g_stands _ _ _ G)].
Qed.
Lemma class_name_ok n u r a ps d0 d f : path n = true -> (length (text n) < m)%nat -> closer u = true \/ ty u = T_LessThan ->
  exists v, good [] n v /\ forall T (k : node -> M T), bind (parse_class_or_module_name E) k (PState a (text n ++ u :: r) ps (d0 :: d) [] f) =
    k v (PState (rev (text n) ++ a) (u :: r) ps (d0 :: d) [] f).
Proof.
  intros P Hm Hu. destruct (path_ok n LESS_GREATER u r a ps d0 d f P ltac:(discriminate) Hm) as (v & G & V).
  { destruct Hu as [H|H]; [left; exact H|right; split; [exact H|reflexivity]]. }
  exists v. split; [exact G|]. intros T k. unfold parse_class_or_module_name. rewrite bind_assoc. at_cur. rewrite bind_assoc. rewrite (bind_ok _ _ _ _ _ V). cbv zeta.
  destruct n; try discriminate P.
  - cbn [path] in P. apply andb_true_iff in P as [Tn N]. pose proof (g_leaf _ _ _ G) as W. cbv beta iota in W. apply is_a_ty in Tn. rewrite W by (rewrite Tn; reflexivity).
    cbn [text app hd]. rewrite Tn. reflexivity.
  - destruct (g_path _ _ _ G) as (t1 & r1 & ->). reflexivity.
  - destruct (g_path _ _ _ G) as (t1 & ->). reflexivity.
Qed.
Lemma class_body_ok b t a r ps d f : ty t = T_EndKeyword -> body_fits after fits separated false returns [] b = true -> (length (body_text text b) < m)%nat ->
  exists t0 ws, goods fst [] (snd b) ws /\ forall T (k : token * list node -> M T),
    bind (parse_body_rescue_to E F T_EndKeyword) k (PState a (body_text text b ++ t :: r) ps d [] f) =
    k (t0, ws) (PState (rev (body_text text b) ++ a) (t :: r) ps d (body_after after [] b) f).
Proof.
  intros Tt Hb Hm. unfold body_fits in Hb. apply andb_true_iff in Hb as [Hb1 Hb2]. destruct (end_closer t Tt) as [Ct Lt].
  destruct (body_ok m IH (Some (rescue_in_body E F)) (fun x => ttype_eqb x T_EndKeyword) b t a r ps d [] f
    ltac:(rewrite Tt; reflexivity) Ct Lt ends_end Hm (separated_all _ Hb1) Hb2) as (t0 & ws & Gw & W).
  exists t0, ws. split; [exact Gw|]. intros T k. unfold parse_body_rescue_to, parse_body_rescue. rewrite (bind_ok _ _ _ _ _ W). reflexivity.
Qed.
Lemma separated_some b w : separated (fst b) = true -> exists x y, body_text text b ++ w = x :: y /\ separator x = true.
Proof.
  destruct b as [[|x s] xs]; cbn [fst separated]; [discriminate|]. cbn [forallb]. intros H. apply andb_true_iff in H as [H _].
  eexists; eexists; split; [reflexivity|exact H].
Qed.
Lemma path_head n w : path n = true -> exists x y, text n ++ w = x :: y /\ (ty x = T_Constant \/ ty x = T_ConstantResolution).
Proof.
  revert w. induction n; intros w; cbn [path]; try discriminate; intros P.
  - apply andb_true_iff in P as [T _]. apply is_a_ty in T. eexists; eexists; split; [reflexivity|auto].
  - repeat (apply andb_true_iff in P as [P ?]). cbn [text]. rewrite <- app_assoc. apply IHn. exact P.
  - repeat (apply andb_true_iff in P as [P ?]). apply is_a_ty in P. eexists; eexists; split; [reflexivity|auto].
Qed.

Lemma spine_module k n b t : Spine m (R_module k n b t).
Proof.
  intros p ia u r a ps d0 d l f Hm K. pose proof (f_fits _ _ _ _ _ _ K) as Hf. cbn [fits] in Hf.
  apply andb_true_iff in Hf as [Hf Tt]. apply andb_true_iff in Hf as [Hf Fb]. apply andb_true_iff in Hf as [Tk Pn]. apply is_a_ty in Tk, Tt.
  cbn [text] in Hm. cbn [length] in Hm. rewrite !app_length in Hm. cbn [length] in Hm.
  assert (Sb : separated (fst b) = true) by (unfold body_fits in Fb; ands; assumption).
  destruct (separated_some b (t :: u :: r) Sb) as (x & y & Ex & Sx).
  destruct (class_name_ok n x y (k :: a) (p :: ps) d0 d f Pn ltac:(clear - Hm; lia) (or_introl (separator_closer x Sx))) as (vn & Gn & Vn).
  destruct (class_body_ok b t (rev (text n) ++ k :: a) (u :: r) (p :: ps) (d0 :: d) f Tt Fb ltac:(clear - Hm; lia)) as (t0 & ws & Gw & W).
  exists (N_Module k vn (t0, ws)), 0%nat. split; [|split; [apply Nat.le_0_l|]].
  - apply good_ordinary; try reflexivity.
    + cbn [meaning]. apply stands_module; [apply path_name; assumption|exact (goods_stands fst _ _ _ Gw)].
    + symmetry. cbn [meaning]. rewrite integer_documented. apply integer_tag. reflexivity.
  - cbn [text after app]. rewrite <- !app_assoc. cbn [app].
    refine (reach_null m p ia a (k :: text n ++ body_text text b ++ t :: u :: r) (p :: ps) (d0 :: d) l f (parse_module E F) _ _ _ _).
    + cbn [hd]. rewrite Tk. reflexivity.
    + unfold parse_module. run1. run1. unfold with_locals. run1. run1. rewrite bind_assoc. rewrite Ex. rewrite Vn. rewrite <- Ex. rewrite bind_assoc. rewrite W. run.
      cbn [rev]. rewrite !rev_app_distr. cbn [rev app]. rewrite <- !app_assoc. reflexivity.
Qed.
Lemma spine_class k n s b t : Spine m (R_class k n s b t).
Proof.
  intros p ia u r a ps d0 d l f Hm K. pose proof (f_fits _ _ _ _ _ _ K) as Hf. cbn [fits] in Hf.
  apply andb_true_iff in Hf as [Hf Tt]. apply andb_true_iff in Hf as [Hf Fb]. apply andb_true_iff in Hf as [Hf Fs]. apply andb_true_iff in Hf as [Tk Pn]. apply is_a_ty in Tk, Tt.
  set (ss := match s with Some (t, e) => t :: text e | None => [] end) in *.
  cbn [text] in Hm. fold ss in Hm. cbn [length] in Hm. rewrite !app_length in Hm. cbn [length] in Hm.
  assert (Sb : separated (fst b) = true) by (unfold body_fits in Fb; ands; assumption).
  destruct (separated_some b (t :: u :: r) Sb) as (x & y & Ex & Sx).
  assert (Hh : exists x2 y2, ss ++ body_text text b ++ t :: u :: r = x2 :: y2 /\ (closer x2 = true \/ ty x2 = T_LessThan)).
  { destruct s as [[s1 e]|]; subst ss.
    - apply andb_true_iff in Fs as [T1 _]. apply is_a_ty in T1. eexists; eexists; split; [reflexivity|auto].
    - exists x, y. split; [exact Ex|left; apply separator_closer; exact Sx]. }
  destruct Hh as (x2 & y2 & Ex2 & Hx2).
  destruct (class_name_ok n x2 y2 (k :: a) (p :: ps) d0 d f Pn ltac:(clear - Hm; lia) Hx2) as (vn & Gn & Vn).
  assert (Super : exists vs, stands vs (match s with Some (_, e) => meaning l e | None => SNil end) /\
     (if ttype_eqb (ty (hd no_token (ss ++ body_text text b ++ t :: u :: r))) T_LessThan then advance ;;; pexpr E LOWEST else ret (N_Nil k))
       (PState (rev (text n) ++ k :: a) (ss ++ body_text text b ++ t :: u :: r) (p :: ps) (d0 :: d) [] f) =
     POk vs (PState (rev ss ++ rev (text n) ++ k :: a) (body_text text b ++ t :: u :: r) (p :: ps) (d0 :: d) [] f)).
  { destruct s as [[s1 e]|]; subst ss.
    - apply andb_true_iff in Fs as [T1 P1]. apply is_a_ty in T1. cbn [length] in Hm.
      destruct (path_ok e LOWEST x y (s1 :: rev (text n) ++ k :: a) (p :: ps) d0 d f P1 ltac:(discriminate) ltac:(clear - Hm; lia) (or_introl (separator_closer x Sx))) as (v & G & V).
      exists v. split; [destruct (path_facts e P1) as (_ & _ & C & _); rewrite C; exact (g_stands _ _ _ G)|].
      cbn [app hd]. rewrite T1. change (ttype_eqb T_LessThan T_LessThan) with true. cbv iota. run1. rewrite Ex. rewrite V.
      cbn [rev]. rewrite <- app_assoc. reflexivity.
    - exists (N_Nil k). split; [apply stands_nil|]. cbn [app rev]. rewrite Ex. cbn [hd].
      rewrite (eqb_diff (ty x) T_LessThan) by (intros H; eapply closer_not; [apply separator_closer; exact Sx| |exact H]; reflexivity). reflexivity. }
  destruct Super as (vs & Ss & Vs).
  destruct (class_body_ok b t (rev ss ++ rev (text n) ++ k :: a) (u :: r) (p :: ps) (d0 :: d) f Tt Fb ltac:(clear - Hm; lia)) as (t0 & ws & Gw & W).
  exists (N_Class k vn vs (t0, ws)), 0%nat. split; [|split; [apply Nat.le_0_l|]].
  - apply good_ordinary; try reflexivity.
    + cbn [meaning]. apply stands_class; [apply path_name; assumption|exact Ss|exact (goods_stands fst _ _ _ Gw)].
    + symmetry. cbn [meaning]. rewrite integer_documented. apply integer_tag. reflexivity.
  - cbn [text after app]. fold ss. rewrite <- !app_assoc. cbn [app].
    refine (reach_null m p ia a (k :: text n ++ ss ++ body_text text b ++ t :: u :: r) (p :: ps) (d0 :: d) l f (parse_class E F) _ _ _ _).
    + cbn [hd]. rewrite Tk. reflexivity.
    + unfold parse_class. run1. rewrite run_peek.
      destruct (path_head n (ss ++ body_text text b ++ t :: u :: r) Pn) as (hx & hy & Eh & Th). rewrite Eh. cbn [hd].
      rewrite (eqb_diff (ty hx) T_LeftShift) by (destruct Th as [T|T]; rewrite T; discriminate). rewrite <- Eh. run1. unfold with_locals. run1. run1.
      rewrite bind_assoc. rewrite Ex2. rewrite Vn. rewrite <- Ex2. rewrite bind_assoc.
      at_cur. rewrite bind_assoc. rewrite (bind_ok _ _ _ _ _ Vs). rewrite bind_assoc. rewrite W. run.
      cbn [rev]. rewrite !rev_app_distr. cbn [rev app]. rewrite <- !app_assoc. reflexivity.
Qed.
End Class.

(** ** Every expression *)
Lemma spine_all m : Main m -> Main (pred m) -> forall k e, (length (text e) <= k)%nat -> Spine m e.
Proof.
  intros IH IH0. induction k as [|k IHk]; intros e Hk; [pose proof (text_pos e); exfalso; lia|].
  destruct e; cbn [text] in Hk.
  - apply spine_leaf; exact IH.
  - apply spine_group; exact IH.
  - apply spine_unary; exact IH.
  - apply spine_binary; [exact IH|]. apply IHk. rewrite app_length in Hk. cbn [length] in Hk. lia.
  - apply spine_ternary; [exact IH|]. apply IHk. rewrite app_length in Hk. cbn [length] in Hk. lia.
  - apply spine_assign; exact IH.
  - apply spine_op_assign; exact IH.
  - apply spine_empty_array.
  - apply spine_array; [exact IH|exact IH0].
  - apply spine_empty_hash.
  - apply spine_hash; [exact IH|exact IH0].
  - apply spine_call; [exact IH|exact IH0|]. intros x d0 ->. apply IHk. cbn [recv_text] in Hk. rewrite !app_length in Hk. cbn [length] in Hk. lia.
  - apply spine_index; [exact IH|exact IH0|]. apply IHk. rewrite app_length in Hk. cbn [length] in Hk. lia.
  - apply spine_scope. apply IHk. rewrite app_length in Hk. cbn [length] in Hk. lia.
  - apply spine_top.
  - apply spine_command; [exact IH|exact IH0|]. intros x d0 ->. apply IHk. cbn [recv_text] in Hk. rewrite !app_length in Hk. cbn [length] in Hk. lia.
  - apply spine_block; [exact IH|]. apply IHk. rewrite app_length in Hk. cbn [length] in Hk. lia.
  - apply spine_if; exact IH.
  - apply spine_unless; exact IH.
  - apply spine_while; exact IH.
  - apply spine_modifier; [exact IH|]. apply IHk. rewrite app_length in Hk. cbn [length] in Hk. lia.
  - apply spine_case; exact IH.
  - apply spine_def; exact IH.
  - apply spine_class; exact IH.
  - apply spine_module; exact IH.
  - apply spine_jump; exact IH.
  - apply spine_keyword; [exact IH|exact IH0].
  - apply spine_quoted; exact IH.
  - apply spine_attr; [exact IH|]. apply IHk. rewrite app_length in Hk. cbn [length] in Hk. lia.
  - apply spine_element; [exact IH|exact IH0|]. apply IHk. rewrite app_length in Hk. cbn [length] in Hk. lia.
  - apply spine_defined; exact IH.
  - apply spine_lambda; exact IH.
  - apply spine_sclass; exact IH.
  - apply spine_begin; exact IH.
  - apply spine_for; exact IH.
  - intros p ia u r a ps d0 d l f Hm K. discriminate (f_fits _ _ _ _ _ _ K).
  - apply spine_keywords; [exact IH|exact IH0|]. intros x d0 ->. apply IHk. cbn [recv_text] in Hk. rewrite !app_length in Hk. cbn [length] in Hk. lia.
  - apply spine_alias.
  - apply spine_undef.
  - apply spine_yield; [exact IH|exact IH0].
Qed.
Lemma main_all : forall m, Main m.
Proof.
  assert (Z : Main 0) by (intros e p ia u r a ps d0 d l f Hm; exfalso; lia).
  assert (H : forall m, Main m /\ Main (pred m)).
  { induction m as [|m [IH IH0]]; [split; exact Z|]. split; [|exact IH].
    apply main_of_spine. intros e. eapply spine_all; [exact IH|exact IH0|apply Nat.le_refl]. }
  intros m. apply H.
Qed.
Lemma program_ok b c file : ty c = T_Eof -> program_fits b = true ->
  exists tree s v, parse_tokens file (body_text text b ++ [c]) = POk tree s /\ node_sexp tree = inl v /\ bare v = program_meaning b.
Proof.
  intros Tc Hf. unfold parse_tokens, initial_state.
  destruct (tree_ok (parse_fuel (body_text text b ++ [c])) b c file (main_all _) Tc) as (t0 & vs & s' & G & V); [|exact Hf|].
  { unfold parse_fuel. rewrite app_length. cbn [length]. lia. }
  destruct (stands_sexp (block_or_only (t0, vs)) (program_meaning b)) as (v & E & K).
  - pose proof (stands_program t0 vs _ (goods_stands fst _ _ _ G)) as S. unfold program_meaning, body_meaning.
    destruct (map_all (fun l x => after l (fst x)) (fun l x => meaning l (fst x)) [] (snd b)) as [|y [|y2 ys]]; exact S.
  - intros t. pose proof (goods_plain fst _ _ _ G) as P. destruct vs as [|v [|v2 vs]]; [discriminate| |discriminate]. cbn. intros ->. discriminate P.
  - exists (block_or_only (t0, vs)), s', v. split; [exact V|]. split; assumption.
Qed.
Lemma one_meaning b b' : program_fits b = true -> program_fits b' = true -> body_text text b = body_text text b' -> program_meaning b = program_meaning b'.
Proof.
  intros H H' Et. set (c := Tok T_Eof None None 0 [] 0 0 false).
  destruct (program_ok b c [] eq_refl H) as (x & s & v & V & N & <-). destruct (program_ok b' c [] eq_refl H') as (x' & s' & v' & V' & N' & <-).
  rewrite Et in V. rewrite V in V'. injection V' as -> ->. rewrite N in N'. injection N' as ->. reflexivity.
Qed.
Lemma source_ok items tail b eof file fuel :
  fine start items tail -> hd 0 (written items tail) <> 0xEF -> (length items < fuel)%nat ->
  tokens_of items tail = body_text text b ++ [eof] -> ty eof = T_Eof -> program_fits b = true ->
  exists v, parse fuel file (written items tail) = Parsed v /\ bare v = program_meaning b.
Proof.
  intros Fi Hh Hn Et Te Hf. destruct (program_ok b eof file Te Hf) as (x & s & v & V & N & K).
  exists v. split; [|exact K]. unfold parse. rewrite (text_tokens items tail fuel Fi Hh Hn), Et, V, N. reflexivity.
Qed.
Lemma tree_source_ok c b eof file fuel :
  items_fine start None c [] -> hd 0 (SpecText.text c) <> 0xEF -> (length (SpecText.text c) < fuel)%nat ->
  text_tokens_of c = body_text text b ++ [eof] -> ty eof = T_Eof -> program_fits b = true ->
  exists v, parse fuel file (SpecText.text c) = Parsed v /\ bare v = program_meaning b.
Proof.
  intros Fi Hh Hn Et Te Hf. destruct (program_ok b eof file Te Hf) as (x & s & v & V & N & K).
  exists v. split; [|exact K]. unfold parse. rewrite (tree_tokens c fuel Fi Hh Hn), Et, V, N. reflexivity.
Qed.

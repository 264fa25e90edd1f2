(** * RubyArgs: lists, hashes and the arguments of calls

    Running the parser on the elements of lists, the pairs of hashes and the arguments of
    calls; [Spine] for arrays and hashes.  No code is modelled here. *)
From Coq Require Import Strings.String NArith ZArith Bool List Lia.
From Verif Require Import Base Token Node ParserBase ParserModel Sexp SpecRuby RubyTransform RubyNodes RubyBase RubyRun RubyBody RubyExpr RubyOps RubyForms.
Import ListNotations.
Open Scope N_scope.
Open Scope list_scope.

(** ** Tokens behind an element *)
Definition stopper (p d0 : N) (u : token) : Prop :=
  okf u = true /\ (forall b, level (ty u) b <= p /\ level (ty u) b <= 7) /\ (ty u = T_DoKeyword -> d0 <> 0).
Lemma listp_pos p : listp p = true -> 1 <= p /\ p <= 14.
Proof.
  unfold listp. intros H. repeat (apply orb_true_iff in H as [H|H]); apply N.eqb_eq in H; subst; split; discriminate.
Qed.
Lemma comma_stopper p d0 u : listp p = true -> ty u = T_Comma -> stopper p d0 u.
Proof.
  intros H T. apply listp_pos in H. unfold stopper, okf. rewrite T. split; [reflexivity|]. split; [|discriminate].
  intros b. cbn [level]. clear - H. lia.
Qed.
Lemma rocket_stopper p d0 u : ty u = T_HashRocket -> stopper p d0 u.
Proof.
  intros T. unfold stopper, okf. rewrite T. split; [reflexivity|]. split; [|discriminate].
  intros b. cbn [level]. lia.
Qed.
Lemma closer_stopper p d0 u : closer u = true -> stopper p d0 u.
Proof.
  intros T. split; [apply closer_okf; exact T|]. split.
  - intros b. rewrite closer_level by exact T. lia.
  - intros X. unfold closer in T. rewrite X in T. discriminate T.
Qed.

(** Commas, and [u] behind the last element. *)
Fixpoint ended (u : token) (l : list token) : Prop :=
  match l with
  | [] => False
  | [t] => t = u
  | t :: l => ty t = T_Comma /\ ended u l
  end.
Lemma ended_cons u t x l : ended u (t :: x :: l) -> ty t = T_Comma /\ ended u (x :: l).
Proof. intros H. exact H. Qed.
Lemma closed_cons c t x l : closed c (t :: x :: l) = true -> ty t = T_Comma /\ closed c (x :: l) = true.
Proof. intros H. cbn [closed] in H. apply andb_true_iff in H as [A B]. apply is_a_ty in A. split; assumption. Qed.
Lemma closed_ended c l : closed c l = true -> exists u, ty u = c /\ ended u l.
Proof.
  induction l as [|t l IH]; [discriminate|]. destruct l as [|x l]; intros H.
  - exists t. split; [apply is_a_ty; exact H|reflexivity].
  - apply closed_cons in H as [A B]. destruct (IH B) as (u & U & V). exists u. split; [exact U|]. split; assumption.
Qed.
Lemma ended_stopper p d0 u x l : listp p = true -> stopper p d0 u -> ended u (x :: l) -> stopper p d0 x.
Proof.
  intros P S H. destruct l as [|y l]; [cbn in H; subst; exact S|]. destruct H as [H _]. apply comma_stopper; assumption.
Qed.
Lemma ended_not u x l t : ended u (x :: l) -> ty u <> t -> t <> T_Comma -> ty x <> t.
Proof. destruct l as [|y l]; intros H A B; [cbn in H; subst; exact A|]. destruct H as [H _]. congruence. Qed.

Lemma all_fit_cons P l e s xs : all_fit after P l ((e, s) :: xs) = true -> P l e = true /\ all_fit after P (after l e) xs = true.
Proof. unfold all_fit. cbn [map_all forallb fst]. intros H. apply andb_true_iff in H. exact H. Qed.
Lemma pairs_fit_cons P Q l x xs : pairs_fit after P Q l (x :: xs) = true ->
  pair_fits after P Q l x = true /\ pairs_fit after P Q (pair_after after l x) xs = true.
Proof. unfold pairs_fit. cbn [map_all forallb]. intros H. apply andb_true_iff in H. exact H. Qed.
Lemma items_text_cons e s xs : items_text text ((e, s) :: xs) = text e ++ s :: items_text text xs.
Proof. unfold items_text. cbn [flat_map fst snd]. rewrite <- app_assoc. reflexivity. Qed.

Definition pair_body (p : pair rb) : list token :=
  match p with P_key k v _ => k :: text v | P_rocket k t v _ => text k ++ t :: text v | P_double t v _ => t :: text v end.
Definition pairs_text (ps : list (pair rb)) : list token := flat_map (pair_text text) ps.
Lemma pair_text_body p : pair_text text p = pair_body p ++ [pair_end p].
Proof. destruct p; cbn; rewrite <- ?app_assoc; reflexivity. Qed.
Lemma pairs_text_cons p ps : pairs_text (p :: ps) = pair_body p ++ pair_end p :: pairs_text ps.
Proof. unfold pairs_text. cbn [flat_map]. rewrite pair_text_body, <- app_assoc. reflexivity. Qed.
Lemma pair_pos p : (0 < length (pair_body p))%nat.
Proof. destruct p; cbn [pair_body]; [cbn; lia| |cbn; lia]. rewrite app_length. pose proof (text_pos k). lia. Qed.
Lemma items_count xs : (length xs <= length (items_text text xs))%nat.
Proof. induction xs as [|[e s] xs IH]; [cbn; lia|]. rewrite items_text_cons, app_length. cbn [length]. lia. Qed.
Lemma pairs_count ps : (length ps <= length (pairs_text ps))%nat.
Proof. induction ps as [|p ps IH]; [cbn; lia|]. rewrite pairs_text_cons, app_length. cbn [length]. lia. Qed.

Definition nopass (v : node) : bool := match v with N_BlockPass _ _ => false | _ => true end.
Lemma no_pass vs : forallb nopass vs = true -> last_is_block_pass vs = false.
Proof.
  induction vs as [|v vs IH]; [reflexivity|]. cbn [forallb]. intros H. apply andb_true_iff in H as [A B].
  destruct vs as [|w vs]; [destruct v; (reflexivity || discriminate A)|]. specialize (IH B).
  destruct v; exact IH.
Qed.
Lemma plain_pass v : plain v = true -> nopass v = true.
Proof. destruct v; (reflexivity || discriminate). Qed.
Lemma plains_pass vs : forallb plain vs = true -> forallb nopass vs = true.
Proof.
  induction vs as [|v vs IH]; [reflexivity|]. cbn [forallb]. intros H. apply andb_true_iff in H as [A B].
  rewrite (plain_pass v A), (IH B). reflexivity.
Qed.

(** An element of a list. *)
Definition element (v : node) : bool :=
  match v with N_SymbolKey _ _ | N_InterpolatedSymbolKey _ _ | N_KeywordSplat _ _ | N_BlockPass _ _ => false | _ => true end.
Lemma plain_element v : plain v = true -> element v = true.
Proof. destruct v; (reflexivity || discriminate). Qed.
Lemma element_pass v : element v = true -> nopass v = true.
Proof. destruct v; (reflexivity || discriminate). Qed.

Definition keyless (v : node) : bool :=
  match v with N_SymbolKey _ _ | N_InterpolatedSymbolKey _ _ | N_KeywordSplat _ _ => false | _ => true end.
Lemma element_keyless v : element v = true -> keyless v = true.
Proof. destruct v; (reflexivity || discriminate). Qed.

(** A closing token. *)
Definition isclose (t : ttype) : bool := match t with T_RParen | T_RBracket | T_RCurlyBrace => true | _ => false end.

(** What stands behind a star or an ampersand. *)
Lemma part_ok n e u p r a ps d0 d l f : Main n ->
  fits l e = true -> (length (text e) < n)%nat -> p < lthr (left e) -> 3 <= right e -> stopper p d0 u -> (ty u = T_Comma -> assigns e = false) ->
  (shallow e = true -> d0 = 0) ->
  exists v, good l e v /\
    pexpr (parse_expression n) p (PState a (text e ++ u :: r) ps (d0 :: d) l f) =
    POk v (PState (rev (text e) ++ a) (u :: r) ps (d0 :: d) (after l e) f).
Proof.
  intros IH Hf Hm A B (Ku & Lu & Du) Hc Hs.
  apply IH; [exact Hm| |apply Lu|intros X; split; [apply Du; exact X|exact B]].
  constructor; try assumption.
  - apply rthr3 in B. specialize (Lu (number e)). clear - B Lu. lia.
  - discriminate.
  - intros X. split; [apply Hs; exact X|reflexivity].
  - intros X. left. split; [apply Du; exact X|exact B].
  - intros _. exact B.
  - intros X. left. apply Hc. exact X.
  - intros X. apply returns_right in X. clear - X B. lia.
Qed.
Lemma stopper_up p q d0 u : stopper p d0 u -> 7 <= q -> stopper q d0 u.
Proof. intros (A & B & C) H. split; [exact A|]. split; [|exact C]. intros b. specialize (B b). clear - B H. lia. Qed.
Lemma stopper_curly p d0 u : stopper p d0 u -> ty u <> T_LCurlyBrace.
Proof. intros (_ & B & _) X. specialize (B false). rewrite X in B. cbn [level] in B. clear - B. lia. Qed.
Lemma as_operand_ok l e : as_operand fits l e = true -> fits l e = true /\ 19 < lthr (left e) /\ 3 <= right e /\ assigns e = false.
Proof.
  unfold as_operand. intros H. apply andb_true_iff in H as [H D]. apply andb_true_iff in H as [H C]. apply andb_true_iff in H as [A B].
  apply N.leb_le in B, C. apply negb_true_iff in D. repeat split; try assumption.
  pose proof (lthr_mono 7 (left e) B) as X. change (lthr 7) with 22 in X. clear - X. lia.
Qed.

Lemma bind_ok_eq {A B} (x y : M A) (k : A -> M B) s s' : x s = y s' -> bind x k s = bind y k s'.
Proof. intros H. unfold bind. rewrite H. reflexivity. Qed.

Section Arguments.
Variable m : nat.
Hypothesis IH : Main m.
Hypothesis IH0 : Main (pred m).
Notation E := (parse_expression m).
Notation F := (m + m + 2)%nat.

(** ** One element *)
Lemma argument_ok e u p r a ps d0 d l f :
  as_argument fits l e = true -> (length (text e) < m)%nat -> listp p = true -> stopper p d0 u ->
  (shallow e = true -> d0 = 0) ->
  exists v, good l e v /\
    pexpr E p (PState a (text e ++ u :: r) ps (d0 :: d) l f) =
    POk v (PState (rev (text e) ++ a) (u :: r) ps (d0 :: d) (after l e) f).
Proof.
  intros Hf Hm Hp (Ku & Lu & Du) Hs. unfold as_argument in Hf. apply andb_true_iff in Hf as [Hf Hc]. apply andb_true_iff in Hf as [Hf Ha].
  apply at_least_3 in Ha as (A & B & C). pose proof (listp_pos p Hp) as P.
  apply IH; [exact Hm| |apply Lu|intros X; split; [apply Du; exact X|exact B]].
  constructor; try assumption.
  - apply lthr3 in A. clear - A P. lia.
  - apply rthr3 in B. specialize (Lu (number e)). clear - B Lu. lia.
  - discriminate.
  - intros X. split; [apply Hs; exact X|reflexivity].
  - intros X. left. split; [apply Du; exact X|exact B].
  - intros _. exact B.
  - intros _. right. split; assumption.
  - intros X. rewrite X in C. discriminate C.
Qed.
Lemma as_starts l e : as_argument fits l e = true -> starts (ty (head e)) = true.
Proof. unfold as_argument. intros H. apply andb_true_iff in H as [H _]. apply andb_true_iff in H as [H _]. eapply starts_head. exact H. Qed.

Lemma item_hd l e P : as_item fits l e = true -> P T_Star = false -> (forall t, starts t = true -> P t = false) -> P (ty (head e)) = false.
Proof.
  intros H A B. destruct e; try (apply B; eapply as_starts; exact H).
  cbn [as_item] in H. apply andb_true_iff in H as [H _]. apply is_a_ty in H. unfold head. cbn [text hd]. rewrite H. exact A.
Qed.
(** An expression with a token of its own in front, in a place for arguments. *)
Lemma prefix_ok t e (mk : node -> node) g u p q r a ps d0 d l f :
  (forall E F, null_denotation E F (ty t) = Some (g E)) -> is_end_of_line (ty t) = false -> is_valid (ty u) = true ->
  (forall w, node_is_symbol_key (mk w) = false /\ is_numeric (mk w) = false) ->
  (forall w n s a', pexpr (parse_expression n) q (PState (t :: a') (text e ++ u :: r) (p :: ps) (d0 :: d) l f) = POk w s ->
     g (parse_expression n) (PState a' (t :: text e ++ u :: r) (p :: ps) (d0 :: d) l f) = POk (mk w) s) ->
  fits l e = true -> (length (t :: text e) < m)%nat -> q < lthr (left e) -> 3 <= right e -> stopper p d0 u -> stopper q d0 u -> (ty u = T_Comma -> assigns e = false) ->
  ty u <> T_LCurlyBrace ->
  (shallow e = true -> d0 = 0) ->
  exists v, good l e v /\
    pexpr E p (PState a (t :: text e ++ u :: r) ps (d0 :: d) l f) =
    POk (mk v) (PState (rev (text e) ++ t :: a) (u :: r) ps (d0 :: d) (after l e) f).
Proof.
  intros Hn Ht Vu Hk Hg Hf Hm Hl Hr Su Sq Ha Hu Hs. cbn [length] in Hm.
  assert (X : exists n, m = S n) by (destruct m as [|n]; [exfalso; clear - Hm; lia|exists n; reflexivity]). destruct X as (n & X). subst m. cbn [pred] in IH0.
  destruct (part_ok n e u q r (t :: a) (p :: ps) d0 d l f IH0 Hf ltac:(clear - Hm; lia) Hl Hr Sq Ha Hs) as (v & G & V).
  exists v. split; [exact G|]. unfold pexpr. cbn [parse_expression]. unfold expression_body.
  rewrite run_no_skip by exact Ht. run1. run1. rewrite Hn. rewrite (bind_ok _ _ _ _ _ (Hg v n _ a V)). cbv beta.
  destruct (Hk v) as [Hk1 Hk2]. destruct Su as (Ku & Lu & Du).
  erewrite bind_ok; [|rewrite <- plus_n_Sm; apply loop_done; apply stop; [exact Ku|exact Hk1|exact Hu|exact Du|rewrite Hk2; apply Lu]].
  reflexivity.
Qed.
Lemma item_ok e u p r a ps d0 d l f :
  as_item fits l e = true -> (length (text e) < m)%nat -> listp p = true -> stopper p d0 u ->
  (shallow e = true -> d0 = 0) ->
  exists v, stands v (meaning l e) /\ element v = true /\
    pexpr E p (PState a (text e ++ u :: r) ps (d0 :: d) l f) =
    POk v (PState (rev (text e) ++ a) (u :: r) ps (d0 :: d) (after l e) f).
Proof.
  intros Hf Hm Hp Hu Hs.
  assert (Z : forall Hf' : as_argument fits l e = true, exists v, stands v (meaning l e) /\ element v = true /\
    pexpr E p (PState a (text e ++ u :: r) ps (d0 :: d) l f) = POk v (PState (rev (text e) ++ a) (u :: r) ps (d0 :: d) (after l e) f)).
  { intros Hf'. destruct (argument_ok e u p r a ps d0 d l f Hf' Hm Hp Hu Hs) as (v & G & V). exists v.
    split; [exact (g_stands _ _ _ G)|]. split; [exact (plain_element _ (g_plain _ _ _ G))|exact V]. }
  destruct e; try (apply Z; exact Hf). clear Z.
  cbn [as_item] in Hf. apply andb_true_iff in Hf as [Tt Hf]. apply is_a_ty in Tt. destruct (as_operand_ok _ _ Hf) as (Fe & Le & Re & Ae).
  cbn [text shallow] in Hm, Hs.
  destruct (prefix_ok t e (fun v => N_Splat t (Some v)) parse_splat u p 19 r a ps d0 d l f) as (v & G & V).
  - intros E0 F0. rewrite Tt. reflexivity.
  - rewrite Tt. reflexivity.
  - apply okf_valid. apply Hu.
  - intros w. split; reflexivity.
  - intros w n s a' V. unfold parse_splat. run1. run1. pose proof (starts_head l e Fe) as St. run1.
    rewrite (starts_not T_Comma _ eq_refl St), (starts_not T_Equal _ eq_refl St). cbn [orb]. change SPLAT with 19. rewrite (bind_ok _ _ _ _ _ V). reflexivity.
  - exact Fe.
  - exact Hm.
  - exact Le.
  - exact Re.
  - exact Hu.
  - apply (stopper_up p); [exact Hu|discriminate].
  - intros _. exact Ae.
  - exact (stopper_curly _ _ _ Hu).
  - exact Hs.
  - exists (N_Splat t (Some v)). split; [apply stands_splat; exact (g_stands _ _ _ G)|]. split; [reflexivity|].
    cbn [text app rev]. rewrite <- app_assoc. exact V.
Qed.

(** ** Arrays *)
Lemma array_rest t : forall xs s k acc a r ps d l f,
  closed T_RBracket (s :: map snd xs) = true -> all_fit after (as_item fits) l xs = true ->
  (length (items_text text xs) <= m)%nat -> (length xs < k)%nat ->
  exists vs, Forall2 stands vs (items_meaning after meaning l xs) /\
    mloop k (fun acc =>
             b <- cur_is T_Comma ;;
             if b then
               advance ;;;
               r <- array_add_node E F acc ;;
               match r with
               | inr l => pop_depth ;;; ret (inr (N_Array t l))
               | inl l => ret (inl l)
               end
             else
               expect T_RBracket "array closing bracket" ;;;
               advance ;;;
               pop_depth ;;;
               ret (inr (N_Array t acc))) acc (PState a (s :: items_text text xs ++ r) ps (0 :: d) l f) =
    POk (N_Array t (acc ++ vs)) (PState (rev (items_text text xs) ++ s :: a) r ps d (items_after after l xs) f).
Proof.
  induction xs as [|[e s'] xs IHx]; intros s k acc a r ps d l f Hc Hf Hm Hk.
  - apply is_a_ty in Hc. exists []. split; [constructor|]. destruct k as [|k]; [inversion Hk|]. apply loop_done.
    cbn [items_text flat_map app rev]. run. rewrite app_nil_r. reflexivity.
  - cbn [map snd] in Hc. apply closed_cons in Hc as [Hs Hc]. apply all_fit_cons in Hf as [He Hf].
    rewrite items_text_cons in *. rewrite app_length in Hm. cbn [length] in Hm, Hk. destruct k as [|k]; [inversion Hk|].
    assert (Hm1 : (length (text e) < m)%nat) by (clear - Hm; lia).
    assert (Hm2 : (length (items_text text xs) <= m)%nat) by (clear - Hm; lia).
    assert (Hs' : ty s' = T_Comma \/ ty s' = T_RBracket).
    { destruct xs as [|[? ?] xs]; [right; apply is_a_ty; exact Hc|left; cbn [map snd] in Hc; apply closed_cons in Hc; tauto]. }
    assert (St : stopper 1 0 s').
    { destruct Hs' as [X|X]; [apply comma_stopper; [reflexivity|exact X]|apply closer_stopper; unfold closer; rewrite X; reflexivity]. }
    rewrite <- app_assoc. cbn [app].
    destruct (item_ok e s' 1 (items_text text xs ++ r) (s :: a) ps 0 d l f He Hm1 eq_refl St ltac:(reflexivity)) as (v & G & _ & V).
    destruct (IHx s' k (acc ++ [v]) (rev (text e) ++ s :: a) r ps d (after l e) f Hc Hf Hm2 ltac:(clear - Hk; lia)) as (vs & Gs & R).
    exists (v :: vs). split; [constructor; assumption|].
    erewrite loop_step; [rewrite R|].
    + rewrite <- app_assoc. cbn [app items_after after_all fst]. rewrite rev_app_distr. cbn [rev]. rewrite <- !app_assoc. reflexivity.
    + run. unfold array_add_node. run1. run1.
      rewrite (item_hd l e (fun t => ttype_eqb t T_RBracket) He eq_refl (fun t0 St0 => starts_not T_RBracket t0 eq_refl St0)).
      rewrite (item_hd l e (fun t => ttype_eqb t T_SymbolKey) He eq_refl (fun t0 St0 => starts_not T_SymbolKey t0 eq_refl St0)). cbv beta iota.
      rewrite bind_assoc. change ARRAY with 1. rewrite (bind_ok _ _ _ _ _ V). cbv beta. run1. run1.
      assert (X : ttype_eqb (ty s') T_HashRocket = false) by (destruct Hs' as [X|X]; rewrite X; reflexivity).
      rewrite X. cbv beta iota. run1. reflexivity.
Qed.

Lemma spine_array o xs : Spine m (R_array o xs).
Proof.
  intros p ia u r a ps d0 d l f Hm K. pose proof (f_fits _ _ _ _ _ _ K) as Hf. cbn [fits] in Hf.
  apply andb_true_iff in Hf as [Hf Fx]. apply andb_true_iff in Hf as [Ho Hc]. apply is_a_ty in Ho.
  cbn [text length] in Hm.
  destruct xs as [|[e s] xs]; [discriminate Hc|]. cbn [map snd] in Hc. apply all_fit_cons in Fx as [He Fx].
  rewrite items_text_cons, app_length in Hm. cbn [length] in Hm.
  assert (Hm1 : (length (text e) < m)%nat) by (clear - Hm; lia).
  assert (Hm2 : (length (items_text text xs) <= m)%nat) by (clear - Hm; lia).
  assert (Hk : (length xs < F)%nat) by (clear - Hm; pose proof (items_count xs); lia).
  assert (Hs' : ty s = T_Comma \/ ty s = T_RBracket).
  { destruct xs as [|[? ?] xs]; [right; apply is_a_ty; exact Hc|left; cbn [map snd] in Hc; apply closed_cons in Hc; tauto]. }
  assert (St : stopper 1 0 s).
  { destruct Hs' as [X|X]; [apply comma_stopper; [reflexivity|exact X]|apply closer_stopper; unfold closer; rewrite X; reflexivity]. }
  destruct (item_ok e s 1 (items_text text xs ++ u :: r) (o :: a) (p :: ps) 0 (d0 :: d) l f He Hm1 eq_refl St ltac:(reflexivity)) as (v & G & _ & V).
  destruct (array_rest o xs s F [v] (rev (text e) ++ o :: a) (u :: r) (p :: ps) (d0 :: d) (after l e) f Hc Fx Hm2 Hk) as (vs & Gs & R).
  exists (N_Array o (v :: vs)), 0%nat. split; [|split; [apply Nat.le_0_l|]].
  - apply good_ordinary; try reflexivity.
    + apply stands_array. constructor; assumption.
    + symmetry. apply integer_tag. reflexivity.
  - cbn [text after]. rewrite items_text_cons. cbn [app]. rewrite <- app_assoc. cbn [app].
    refine (reach_null m p ia a (o :: text e ++ s :: items_text text xs ++ u :: r) (p :: ps) (d0 :: d) l f (parse_array E F) _ _ _ _).
    + cbn [hd]. rewrite Ho. reflexivity.
    + unfold parse_array. run. unfold array_add_node at 1. run1. run1.
      rewrite (item_hd l e (fun t => ttype_eqb t T_RBracket) He eq_refl (fun t0 St0 => starts_not T_RBracket t0 eq_refl St0)).
      rewrite (item_hd l e (fun t => ttype_eqb t T_SymbolKey) He eq_refl (fun t0 St0 => starts_not T_SymbolKey t0 eq_refl St0)). cbv beta iota.
      rewrite bind_assoc. change ARRAY with 1. rewrite (bind_ok _ _ _ _ _ V). cbv beta. run1. run1.
      assert (X : ttype_eqb (ty s) T_HashRocket = false) by (destruct Hs' as [X|X]; rewrite X; reflexivity).
      rewrite X. cbv beta iota. run1. cbv beta iota. etransitivity; [exact R|].
      cbn [rev app items_after after_all fst]. rewrite rev_app_distr. cbn [rev]. rewrite <- !app_assoc. reflexivity.
Qed.

(** ** Pairs *)
Lemma run_key k p a r ps d l f : m <> 0%nat -> ty k = T_SymbolKey -> named k = true ->
  pexpr E p (PState a (k :: r) ps d l f) = POk (N_SymbolKey k (name k)) (PState (k :: a) r ps d l f).
Proof.
  intros Hm Tk Nk. destruct (named_ok k Nk) as [Lk _]. clear IH IH0. unfold pexpr. destruct m as [|n]; [contradiction|]. cbn [parse_expression].
  unfold expression_body. rewrite run_no_skip by (cbn [hd]; rewrite Tk; reflexivity). run.
  cbn [null_denotation]. unfold parse_symbol_key. run. unfold literal_string. rewrite Lk. run.
  rewrite (bind_ok _ _ _ (N_SymbolKey k (name k)) (PState (k :: a) r (p :: ps) d l f)); [reflexivity|].
  rewrite Nat.add_comm. cbn [Nat.add]. apply loop_done. unfold expression_step.
  change (bind cur ?h (PState (k :: a) r (p :: ps) d l f)) with (h (hd no_token r) (PState (k :: a) r (p :: ps) d l f)). cbv beta.
  destruct (is_valid (ty (hd no_token r))); reflexivity.
Qed.

Lemma pair_ok x p r a ps d0 d l f : pair_fits after (as_argument fits) (as_operand fits) l x = true -> (length (pair_body x) < m)%nat ->
  listp p = true -> stopper p d0 (pair_end x) -> (pair_shallow shallow x = true -> d0 = 0) ->
  exists kn vns s1, Forall2 stands (kn :: vns) (pair_meaning after meaning l x) /\
    pexpr E p (PState a (pair_body x ++ pair_end x :: r) ps (d0 :: d) l f) = POk kn s1 /\
    starts_bare_hash kn s1 = POk true s1 /\
    forall acc, hash_value E p kn acc s1 =
      POk (acc ++ vns) (PState (rev (pair_body x) ++ a) (pair_end x :: r) ps (d0 :: d) (pair_after after l x) f).
Proof.
  intros Hf Hm Hp Hs Hd. destruct x as [k v s|k t v s|t v s]; cbn [pair_fits pair_body pair_end pair_shallow pair_after pair_meaning] in *.
  - apply andb_true_iff in Hf as [Hf Hv]. apply andb_true_iff in Hf as [Tk Nk]. apply is_a_ty in Tk. cbn [length] in Hm.
    destruct (argument_ok v s p r (k :: a) ps d0 d l f Hv ltac:(clear - Hm; lia) Hp Hs Hd) as (w & G & V).
    exists (N_SymbolKey k (name k)), [w], (PState (k :: a) (text v ++ s :: r) ps (d0 :: d) l f). split; [|split; [|split]].
    + constructor; [apply stands_key|]. constructor; [exact (g_stands _ _ _ G)|constructor].
    + cbn [app]. apply run_key; try assumption. clear - Hm. lia.
    + unfold starts_bare_hash. run1. cbn [node_is_symbol_key]. rewrite orb_true_r. reflexivity.
    + intros acc. unfold hash_value. cbn [node_is_symbol_key]. rewrite (bind_ok _ _ _ _ _ V). cbn [rev]. rewrite <- app_assoc. reflexivity.
  - apply andb_true_iff in Hf as [Hf Hv]. apply andb_true_iff in Hf as [Tt Hk]. apply is_a_ty in Tt. rewrite app_length in Hm. cbn [length] in Hm.
    destruct (argument_ok k t p (text v ++ s :: r) a ps d0 d l f Hk ltac:(clear - Hm; lia) Hp (rocket_stopper p d0 t Tt) ltac:(intros X; apply Hd; rewrite X; reflexivity)) as (kn & Gk & Vk).
    destruct (argument_ok v s p r (t :: rev (text k) ++ a) ps d0 d (after l k) f Hv ltac:(clear - Hm; lia) Hp Hs ltac:(intros X; apply Hd; rewrite X, orb_true_r; reflexivity)) as (w & G & V).
    exists kn, [w]. eexists. split; [|split; [rewrite <- app_assoc; cbn [app]; exact Vk|split]].
    + constructor; [exact (g_stands _ _ _ Gk)|]. constructor; [exact (g_stands _ _ _ G)|constructor].
    + unfold starts_bare_hash. run. reflexivity.
    + intros acc. unfold hash_value. rewrite (plain_key kn (g_plain _ _ _ Gk)).
      assert (X : forall A (y z : A), match kn with N_KeywordSplat _ _ => y | _ => z end = z) by (intros A y z; pose proof (g_plain _ _ _ Gk) as P; destruct kn; (reflexivity || discriminate P)).
      rewrite X. run. rewrite (bind_ok _ _ _ _ _ V). rewrite rev_app_distr. cbn [rev]. rewrite <- !app_assoc. reflexivity.
  - apply andb_true_iff in Hf as [Tt Hv]. apply is_a_ty in Tt. destruct (as_operand_ok _ _ Hv) as (Fe & Le & Re & Ae).
    destruct (prefix_ok t v (fun v => N_KeywordSplat t (Some v)) parse_keyword_splat s p 19 r a ps d0 d l f) as (w & G & V).
    + intros E0 F0. rewrite Tt. reflexivity.
    + rewrite Tt. reflexivity.
    + apply okf_valid. apply Hs.
    + intros w. split; reflexivity.
    + intros w n s2 a' V. unfold parse_keyword_splat. run. change SPLAT with 19. rewrite (bind_ok _ _ _ _ _ V). reflexivity.
    + exact Fe.
    + exact Hm.
    + exact Le.
    + exact Re.
    + exact Hs.
    + apply (stopper_up p); [exact Hs|discriminate].
    + intros _. exact Ae.
    + apply (stopper_curly p d0). exact Hs.
    + exact Hd.
    + exists (N_KeywordSplat t (Some w)), []. eexists. split; [|split; [exact V|split]].
      * constructor; [apply stands_kwsplat; exact (g_stands _ _ _ G)|constructor].
      * unfold starts_bare_hash. run1. cbn [node_is_symbol_key]. rewrite !orb_true_r. reflexivity.
      * intros acc. unfold hash_value. cbn [node_is_symbol_key rev]. rewrite <- app_assoc, app_nil_r. reflexivity.
Qed.
Lemma pair_hd x l P r : pair_fits after (as_argument fits) (as_operand fits) l x = true -> P T_SymbolKey = false -> P T_StarStar = false -> (forall t, starts t = true -> P t = false) ->
  P (ty (hd no_token (pair_body x ++ r))) = false.
Proof.
  intros Hf A A' B. destruct x as [k v s|k t v s|t v s]; cbn [pair_fits pair_body] in *; apply andb_true_iff in Hf as [Hf Hv]; try apply andb_true_iff in Hf as [Tk Hk].
  - apply is_a_ty in Tk. cbn [app hd]. rewrite Tk. exact A.
  - rewrite <- app_assoc, hd_text. apply B. eapply as_starts. exact Hk.
  - apply is_a_ty in Hf. cbn [app hd]. rewrite Hf. exact A'.
Qed.

Definition hash_body (p : N) (closing : ttype) (bare : bool) (t : token) (acc : list node) : M (list node + node) :=
  b <- cur_is T_Comma ;;
  if b then
    advance ;;;
    c <- cty ;;
    if ttype_eqb c closing || ttype_eqb c T_Ampersand then ret (inr (N_Hash t bare acc))
    else
      k <- pexpr E p ;;
      acc <- hash_value E p k (acc ++ [k]) ;;
      ret (inl acc)
  else ret (inr (N_Hash t bare acc)).
(** Where the pairs end. *)
Definition finishes p closing u r za rz : Prop := forall bare t acc a ps d l f,
  hash_body p closing bare t acc (PState a (u :: r) ps d l f) = POk (inr (N_Hash t bare acc)) (PState (za ++ a) rz ps d l f).
Lemma finishes_end p closing u r : ty u <> T_Comma -> finishes p closing u r [] (u :: r).
Proof. intros Cu bare t acc a ps d l f. unfold hash_body. run1. rewrite (eqb_diff _ _ Cu). reflexivity. Qed.
Lemma finishes_pass p closing u t r : ty u = T_Comma -> ty t = T_Ampersand -> finishes p closing u (t :: r) [u] (t :: r).
Proof. intros Cu Ct bare t0 acc a ps d l f. unfold hash_body. run. rewrite ?orb_true_r. reflexivity. Qed.
Lemma isclose_not c t : isclose c = true -> isclose t = false -> ttype_eqb t c = false.
Proof. intros A B. apply eqb_diff. congruence. Qed.
Lemma hash_loop p closing u r za rz : listp p = true -> starts closing = false -> isclose closing = true -> finishes p closing u r za rz ->
  forall xs s a ps d0 d l f,
  stopper p d0 u -> ended u (s :: map pair_end xs) -> pairs_fit after (as_argument fits) (as_operand fits) l xs = true ->
  (length (pairs_text xs) <= m)%nat -> (existsb (pair_shallow shallow) xs = true -> d0 = 0) ->
  exists kvs w, Forall2 stands kvs (pairs_meaning after meaning l xs) /\ s :: pairs_text xs = w ++ [u] /\
    forall bare t k acc, (length xs < k)%nat -> mloop k (hash_body p closing bare t) acc (PState a (s :: pairs_text xs ++ r) ps (d0 :: d) l f) =
    POk (N_Hash t bare (acc ++ kvs)) (PState (za ++ rev w ++ a) rz ps (d0 :: d) (after_all (pair_after after) l xs) f).
Proof.
  intros Hp C1 C2 Cu. induction xs as [|x xs IHx]; intros s a ps d0 d l f Hu He Hf Hm Hd.
  - cbn in He. subst s. exists [], []. split; [constructor|]. split; [reflexivity|]. intros bare t k acc Hk. destruct k as [|k]; [inversion Hk|]. apply loop_done.
    cbn [pairs_text flat_map app rev after_all]. rewrite app_nil_r. apply Cu.
  - cbn [map] in He. apply ended_cons in He as [Hs He]. apply pairs_fit_cons in Hf as [Hx Hf].
    rewrite pairs_text_cons in *. rewrite app_length in Hm. cbn [length] in Hm.
    assert (Hm1 : (length (pair_body x) < m)%nat) by (clear - Hm; lia).
    assert (Hm2 : (length (pairs_text xs) <= m)%nat) by (clear - Hm; lia).
    cbn [existsb] in Hd. rewrite <- app_assoc. cbn [app].
    destruct (pair_ok x p (pairs_text xs ++ r) (s :: a) ps d0 d l f Hx Hm1 Hp (ended_stopper _ _ _ _ _ Hp Hu He) ltac:(intros X; apply Hd; rewrite X; reflexivity))
      as (kn & vns & s1 & S & V & _ & W).
    destruct (IHx (pair_end x) (rev (pair_body x) ++ s :: a) ps d0 d (pair_after after l x) f Hu He Hf Hm2 ltac:(intros X; apply Hd; rewrite X, orb_true_r; reflexivity))
      as (kvs & w & Sk & Ew & R).
    exists (kn :: vns ++ kvs), (s :: pair_body x ++ w). split; [|split].
    + unfold pairs_meaning. cbn [map_all concat]. apply (Forall2_app S). exact Sk.
    + cbn [app]. rewrite <- app_assoc, <- Ew. reflexivity.
    + intros bare t k acc Hk. cbn [length] in Hk. destruct k as [|k]; [inversion Hk|].
      erewrite loop_step; [rewrite (R bare t k ((acc ++ [kn]) ++ vns)) by (clear - Hk; lia)|].
      * rewrite <- !app_assoc. cbn [app after_all rev]. rewrite rev_app_distr. rewrite <- !app_assoc. reflexivity.
      * unfold hash_body. run. 
        change (bind cty ?h (PState ?x1 ?x2 ?x3 ?x4 ?x5 ?x6)) with (h (ty (hd no_token x2)) (PState x1 x2 x3 x4 x5 x6)). cbv beta.
        rewrite (pair_hd x l (fun t => ttype_eqb t closing || ttype_eqb t T_Ampersand) _ Hx).
        -- rewrite (bind_ok _ _ _ _ _ V). rewrite (bind_ok _ _ _ _ _ (W _)). reflexivity.
        -- rewrite (isclose_not _ T_SymbolKey C2 eq_refl). reflexivity.
        -- rewrite (isclose_not _ T_StarStar C2 eq_refl). reflexivity.
        -- intros t0 St. rewrite (starts_not closing t0 C1 St), (starts_not T_Ampersand t0 eq_refl St). reflexivity.
Qed.

(** A whole list of pairs, from its first key. *)
Lemma hash_ok p closing u x xs r za rz a ps d0 d l f : listp p = true -> starts closing = false -> isclose closing = true -> finishes p closing u r za rz ->
  stopper p d0 u -> ended u (map pair_end (x :: xs)) -> pairs_fit after (as_argument fits) (as_operand fits) l (x :: xs) = true ->
  (length (pairs_text (x :: xs)) <= m)%nat -> (existsb (pair_shallow shallow) (x :: xs) = true -> d0 = 0) ->
  exists kn s1 kvs w, Forall2 stands kvs (pairs_meaning after meaning l (x :: xs)) /\ pairs_text (x :: xs) = w ++ [u] /\
    pexpr E p (PState a (pairs_text (x :: xs) ++ r) ps (d0 :: d) l f) = POk kn s1 /\ starts_bare_hash kn s1 = POk true s1 /\
    forall bare t, bind (hash_value E p kn [kn]) (fun acc => mloop F (hash_body p closing bare t) acc) s1 =
      POk (N_Hash t bare kvs) (PState (za ++ rev w ++ a) rz ps (d0 :: d) (after_all (pair_after after) l (x :: xs)) f).
Proof.
  intros Hp C1 C2 Cu Hu He Hf Hm Hd. cbn [map existsb] in He, Hd. apply pairs_fit_cons in Hf as [Hx Hf].
  rewrite pairs_text_cons in *. rewrite app_length in Hm. cbn [length] in Hm.
  assert (Hm1 : (length (pair_body x) < m)%nat) by (clear - Hm; lia).
  assert (Hm2 : (length (pairs_text xs) <= m)%nat) by (clear - Hm; lia).
  assert (Hk : (length xs < F)%nat) by (clear - Hm; pose proof (pairs_count xs); lia).
  destruct (pair_ok x p (pairs_text xs ++ r) a ps d0 d l f Hx Hm1 Hp (ended_stopper _ _ _ _ _ Hp Hu He) ltac:(intros X; apply Hd; rewrite X; reflexivity))
    as (kn & vns & s1 & S & V & B & W).
  destruct (hash_loop p closing u r za rz Hp C1 C2 Cu xs (pair_end x) (rev (pair_body x) ++ a) ps d0 d (pair_after after l x) f Hu He Hf Hm2
    ltac:(intros X; apply Hd; rewrite X, orb_true_r; reflexivity)) as (kvs & w & Sk & Ew & R).
  exists kn, s1, (kn :: vns ++ kvs), (pair_body x ++ w). split; [|split; [|split; [|split]]].
  - unfold pairs_meaning. cbn [map_all concat]. apply (Forall2_app S). exact Sk.
  - rewrite <- app_assoc, <- Ew. reflexivity.
  - rewrite <- app_assoc. exact V.
  - exact B.
  - intros bare t. rewrite (bind_ok _ _ _ _ _ (W _)). cbn [app]. rewrite R by exact Hk.
    cbn [after_all app]. rewrite rev_app_distr, <- app_assoc. reflexivity.
Qed.

Lemma spine_hash o xs : Spine m (R_hash o xs).
Proof.
  intros p ia u r a ps d0 d l f Hm K. pose proof (f_fits _ _ _ _ _ _ K) as Hf. cbn [fits] in Hf.
  apply andb_true_iff in Hf as [Hf Fx]. apply andb_true_iff in Hf as [Ho Hc]. apply is_a_ty in Ho.
  cbn [text length] in Hm. fold (pairs_text xs) in Hm.
  destruct xs as [|x xs]; [discriminate Hc|]. destruct (closed_ended _ _ Hc) as (c & Tc & Ec).
  assert (Sc : stopper 3 d0 c) by (apply closer_stopper; unfold closer; rewrite Tc; reflexivity).
  assert (Sh : existsb (pair_shallow shallow) (x :: xs) = true -> d0 = 0) by (intros X; apply (f_shallow _ _ _ _ _ _ K); exact X).
  destruct (hash_ok 3 T_RCurlyBrace c x xs (u :: r) [] (c :: u :: r) (o :: a) (p :: ps) d0 d l f eq_refl eq_refl eq_refl (finishes_end _ _ _ _ ltac:(rewrite Tc; discriminate))
    Sc Ec Fx ltac:(clear - Hm; lia) Sh) as (kn & s1 & kvs & w & S & Ew & V & _ & R).
  exists (N_Hash (hd no_token (pairs_text (x :: xs) ++ u :: r)) false kvs), 0%nat. split; [|split; [apply Nat.le_0_l|]].
  - apply good_ordinary; try reflexivity.
    + apply stands_hash. exact S.
    + symmetry. apply integer_tag. reflexivity.
  - cbn [text after]. fold (pairs_text (x :: xs)). cbn [app].
    refine (reach_null m p ia a (o :: pairs_text (x :: xs) ++ u :: r) (p :: ps) (d0 :: d) l f (parse_hash E F) _ _ _ _).
    + cbn [hd]. rewrite Ho. reflexivity.
    + unfold parse_hash. run.
      change (bind (cur_is T_RCurlyBrace) ?h (PState ?x1 ?x2 ?x3 ?x4 ?x5 ?x6)) with (h (ttype_eqb (ty (hd no_token x2)) T_RCurlyBrace) (PState x1 x2 x3 x4 x5 x6)). cbv beta.
      assert (X : ttype_eqb (ty (hd no_token (pairs_text (x :: xs) ++ u :: r))) T_RCurlyBrace = false).
      { apply pairs_fit_cons in Fx as [Fx _]. rewrite pairs_text_cons, <- app_assoc.
        apply (pair_hd x l (fun t => ttype_eqb t T_RCurlyBrace) _ Fx); [reflexivity|reflexivity|]. intros t0 St. apply starts_not; [reflexivity|exact St]. }
      rewrite X. cbv beta iota. unfold parse_hash_inner. run1.
      change (bind cur ?h (PState ?x1 ?x2 ?x3 ?x4 ?x5 ?x6)) with (h (hd no_token x2) (PState x1 x2 x3 x4 x5 x6)). cbv beta.
      rewrite bind_assoc. change HASH with 3. rewrite (bind_ok _ _ _ _ _ V). cbv beta.
      etransitivity; [eapply bind_ok; exact (R false _)|]. cbv beta. run. rewrite Ew. cbn [rev]. rewrite rev_app_distr. cbn [rev app]. rewrite <- !app_assoc. reflexivity.
Qed.

(** ** The arguments of a call *)
Definition add_args (vs : list node) (call : node) : node := fold_left add_arg vs call.
Definition call_body (p : N) (bare : bool) (closing : ttype) (call : node) : M (node + node) :=
  b <- cur_is T_Comma ;;
  if b then
    advance ;;;
    c <- cty ;;
    if ttype_eqb c closing then ret (inr call)
    else
      arg <- pexpr E p ;;
      h <- starts_bare_hash arg ;;
      if h then
        a <- parse_call_hash_args E F bare closing arg ;;
        ret (inr (add_arg call a))
      else ret (inl (add_arg call arg))
  else ret (inr call).
(** The nodes of arguments. *)
Definition arg_nodes (l : list str) (xs : list (rb * token)) (pr : list (pair rb)) (vs : list node) : Prop :=
  Forall2 stands vs (listed_meaning after meaning l xs pr) /\ forallb nopass vs = true.
Lemma arg_nodes_cons l e s xs pr v vs : stands v (meaning l e) -> element v = true -> arg_nodes (after l e) xs pr vs -> arg_nodes l ((e, s) :: xs) pr (v :: vs).
Proof.
  intros G Ev [H N]. split; [|cbn [forallb]; rewrite (element_pass v Ev), N; reflexivity].
  unfold listed_meaning, items_meaning, items_after in *. cbn [map_all after_all fst].
  destruct pr; [constructor; [exact G|exact H]|]. cbn [app]. constructor; [exact G|exact H].
Qed.
Lemma not_bare arg u a r ps d l f : keyless arg = true -> ty u <> T_HashRocket ->
  starts_bare_hash arg (PState a (u :: r) ps d l f) = POk false (PState a (u :: r) ps d l f).
Proof.
  intros P N. unfold starts_bare_hash. run1. rewrite (eqb_diff _ _ N). destruct arg; (reflexivity || discriminate P).
Qed.
(** The pairs behind the arguments. *)
Lemma pairs_ok (bare : bool) p closing u x xs r za z rz a ps d0 d l f : p = (if bare then BARE_CALL_ARG else CALL_ARG) ->
  starts closing = false -> isclose closing = true -> finishes p closing u r za (z :: rz) -> ty z <> T_StarStar ->
  stopper p d0 u -> ended u (map pair_end (x :: xs)) -> pairs_fit after (as_argument fits) (as_operand fits) l (x :: xs) = true ->
  (length (pairs_text (x :: xs)) <= m)%nat -> (existsb (pair_shallow shallow) (x :: xs) = true -> d0 = 0) ->
  exists kn s1 v w, arg_nodes l [] (x :: xs) [v] /\ pairs_text (x :: xs) = w ++ [u] /\
    pexpr E p (PState a (pairs_text (x :: xs) ++ r) ps (d0 :: d) l f) = POk kn s1 /\ starts_bare_hash kn s1 = POk true s1 /\
    parse_call_hash_args E F bare closing kn s1 =
      POk v (PState (za ++ rev w ++ a) (z :: rz) ps (d0 :: d) (after_all (pair_after after) l (x :: xs)) f).
Proof.
  intros Ep C1 C2 Cu Cs Su Eu Fx Hm Hd.
  assert (Lp : listp p = true) by (subst p; destruct bare; reflexivity).
  destruct (hash_ok p closing u x xs r za (z :: rz) a ps d0 d l f Lp C1 C2 Cu Su Eu Fx Hm Hd) as (kn & s1 & kvs & w & S & Ew & V & B & R).
  exists kn, s1, (N_Hash (hd no_token (p_rest s1)) true kvs), w. split; [|split; [exact Ew|split; [exact V|split; [exact B|]]]].
  - split; [|reflexivity]. cbn [listed_meaning items_meaning map_all items_after after_all app]. constructor; [|constructor].
    apply stands_bare_hash. exact S.
  - unfold parse_call_hash_args, parse_hash_inner. rewrite <- Ep. rewrite bind_assoc.
    change (bind cur ?h s1) with (h (hd no_token (p_rest s1)) s1). cbv beta. run1. run1.
    etransitivity; [eapply bind_ok; exact (R true _)|]. cbv beta. run1. rewrite (eqb_diff _ _ Cs). reflexivity.
Qed.
Lemma call_loop (bare : bool) p closing u : p = (if bare then BARE_CALL_ARG else CALL_ARG) ->
  starts closing = false -> isclose closing = true -> ty u <> T_Comma -> ty u <> T_StarStar -> ty u <> T_HashRocket ->
  forall xs pr s k call a r ps d0 d l f,
  stopper p d0 u -> ended u (s :: map snd xs ++ map pair_end pr) -> all_fit after (as_item fits) l xs = true ->
  pairs_fit after (as_argument fits) (as_operand fits) (items_after after l xs) pr = true ->
  (length (items_text text xs ++ pairs_text pr) <= m)%nat -> (length xs + length pr < k)%nat ->
  (items_shallow shallow xs || existsb (pair_shallow shallow) pr = true -> d0 = 0) ->
  exists vs w, arg_nodes l xs pr vs /\ s :: items_text text xs ++ pairs_text pr = w ++ [u] /\
    mloop k (call_body p bare closing) call (PState a (s :: (items_text text xs ++ pairs_text pr) ++ r) ps (d0 :: d) l f) =
    POk (add_args vs call) (PState (rev w ++ a) (u :: r) ps (d0 :: d) (after_all (pair_after after) (items_after after l xs) pr) f).
Proof.
  intros Ep C1 C2 Cu Cs Ch.
  assert (Lp : listp p = true) by (subst p; destruct bare; reflexivity).
  induction xs as [|[e s'] xs IHx]; intros pr s k call a r ps d0 d l f Hu He Hf Hq Hm Hk Hd.
  - cbn [items_text flat_map app map items_after after_all items_shallow existsb orb length] in *. destruct k as [|k]; [inversion Hk|].
    destruct pr as [|x pr].
    + cbn in He. subst s. exists [], []. split; [split; [constructor|reflexivity]|]. split; [reflexivity|]. apply loop_done.
      unfold call_body. cbn [pairs_text flat_map app]. run1. rewrite (eqb_diff _ _ Cu). reflexivity.
    + cbn [map] in He. apply ended_cons in He as [Hs He].
      destruct (pairs_ok bare p closing u x pr r [] u r (s :: a) ps d0 d l f Ep C1 C2 (finishes_end _ _ _ _ Cu) Cs Hu He Hq Hm Hd) as (kn & s1 & v & w & Av & Ew & V & B & W).
      exists [v], (s :: w). split; [exact Av|]. split; [rewrite Ew; reflexivity|]. apply loop_done.
      unfold call_body. run.
      change (bind cty ?h (PState ?x1 ?x2 ?x3 ?x4 ?x5 ?x6)) with (h (ty (hd no_token x2)) (PState x1 x2 x3 x4 x5 x6)). cbv beta.
      assert (X : ttype_eqb (ty (hd no_token (pairs_text (x :: pr) ++ r))) closing = false).
      { apply pairs_fit_cons in Hq as [Hq _]. rewrite pairs_text_cons, <- app_assoc.
        apply (pair_hd x l (fun t => ttype_eqb t closing) _ Hq); [apply isclose_not; [exact C2|reflexivity]|apply isclose_not; [exact C2|reflexivity]|]. intros t0 St. apply starts_not; assumption. }
      rewrite X. rewrite (bind_ok _ _ _ _ _ V), (bind_ok _ _ _ _ _ B), (bind_ok _ _ _ _ _ W). cbn [rev]. rewrite <- app_assoc. reflexivity.
  - cbn [map snd app] in He. apply ended_cons in He as [Hs He]. apply all_fit_cons in Hf as [He' Hf].
    rewrite items_text_cons in *. rewrite !app_length in Hm. cbn [length Nat.add] in Hm, Hk. destruct k as [|k]; [inversion Hk|].
    assert (Hm1 : (length (text e) < m)%nat) by (clear - Hm; lia).
    assert (Hm2 : (length (items_text text xs ++ pairs_text pr) <= m)%nat) by (clear - Hm; rewrite app_length; lia).
    cbn [items_shallow existsb fst] in Hd. fold (items_shallow shallow xs) in Hd.
    destruct (item_ok e s' p ((items_text text xs ++ pairs_text pr) ++ r) (s :: a) ps d0 d l f He' Hm1 Lp (ended_stopper _ _ _ _ _ Lp Hu He) ltac:(intros X; apply Hd; rewrite X; reflexivity)) as (v & G & Ev & V).
    destruct (IHx pr s' k (add_arg call v) (rev (text e) ++ s :: a) r ps d0 d (after l e) f Hu He Hf Hq Hm2 ltac:(clear - Hk; lia)
      ltac:(intros X; apply Hd; rewrite <- orb_assoc, X, orb_true_r; reflexivity)) as (vs & w & Av & Ew & R).
    exists (v :: vs), (s :: text e ++ w). split; [apply arg_nodes_cons; assumption|]. split.
    + cbn [app]. rewrite <- !app_assoc, <- Ew. reflexivity.
    + erewrite loop_step; [etransitivity; [exact R|]|].
      * cbn [rev app items_after after_all fst add_args fold_left]. rewrite rev_app_distr, <- !app_assoc. reflexivity.
      * unfold call_body. run. rewrite <- !app_assoc. cbn [app]. rewrite app_assoc.
        run1. rewrite (item_hd l e (fun t => ttype_eqb t closing) He' (isclose_not _ T_Star C2 eq_refl) (fun t0 St0 => starts_not closing t0 C1 St0)). rewrite (bind_ok _ _ _ _ _ V).
        rewrite (bind_ok _ _ _ _ _ (not_bare v s' _ _ _ _ _ _ (element_keyless v Ev) (ended_not _ _ _ _ He Ch ltac:(discriminate)))). reflexivity.
Qed.

(** All arguments; the token [u] behind them remains. *)
Lemma args_ok (bare : bool) closing u xs pr call r a ps d0 d l f :
  starts closing = false -> isclose closing = true -> ty u <> T_Comma -> ty u <> T_StarStar -> ty u <> T_HashRocket -> ty u <> T_Ampersand ->
  stopper (if bare then BARE_CALL_ARG else CALL_ARG) d0 u -> ended u (map snd xs ++ map pair_end pr) -> all_fit after (as_item fits) l xs = true ->
  pairs_fit after (as_argument fits) (as_operand fits) (items_after after l xs) pr = true ->
  (length (items_text text xs ++ pairs_text pr) <= m)%nat ->
  (items_shallow shallow xs || existsb (pair_shallow shallow) pr = true -> d0 = 0) ->
  exists vs w, arg_nodes l xs pr vs /\ items_text text xs ++ pairs_text pr = w ++ [u] /\
    forall (k : node -> M node), (arg <- pexpr E (if bare then BARE_CALL_ARG else CALL_ARG) ;;
      h <- starts_bare_hash arg ;;
      call <-
        (if h then a <- parse_call_hash_args E F bare closing arg ;; ret (add_arg call a)
         else mloop F (call_body (if bare then BARE_CALL_ARG else CALL_ARG) bare closing) (add_arg call arg)) ;;
      b <- cur_is T_Ampersand ;;
      call <- (if b then a <- parse_block_pass E ;; ret (add_arg call a) else ret call) ;; k call)
      (PState a ((items_text text xs ++ pairs_text pr) ++ r) ps (d0 :: d) l f) =
    k (add_args vs call) (PState (rev w ++ a) (u :: r) ps (d0 :: d) (after_all (pair_after after) (items_after after l xs) pr) f).
Proof.
  intros C1 C2 Cu Cs Ch Ca Hu He Hf Hq Hm Hd. set (p := if bare then BARE_CALL_ARG else CALL_ARG) in *.
  assert (Lp : listp p = true) by (subst p; destruct bare; reflexivity).
  destruct xs as [|[e s'] xs].
  - cbn [items_text flat_map app map items_after after_all items_shallow existsb orb length] in *.
    destruct pr as [|x pr]; [contradiction|].
    destruct (pairs_ok bare p closing u x pr r [] u r a ps d0 d l f eq_refl C1 C2 (finishes_end _ _ _ _ Cu) Cs Hu He Hq Hm Hd) as (kn & s1 & v & w & Av & Ew & V & B & W).
    exists [v], w. split; [exact Av|]. split; [exact Ew|]. intros k.
    rewrite (bind_ok _ _ _ _ _ V), (bind_ok _ _ _ _ _ B), bind_assoc, (bind_ok _ _ _ _ _ W). run1.
    run1. rewrite (eqb_diff _ _ Ca). reflexivity.
  - cbn [map snd app] in He. apply all_fit_cons in Hf as [He' Hf].
    rewrite items_text_cons in *. rewrite !app_length in Hm. cbn [length Nat.add] in Hm.
    assert (Hm1 : (length (text e) < m)%nat) by (clear - Hm; lia).
    assert (Hm2 : (length (items_text text xs ++ pairs_text pr) <= m)%nat) by (clear - Hm; rewrite app_length; lia).
    assert (Hk : (length xs + length pr < F)%nat) by (clear - Hm; pose proof (items_count xs); pose proof (pairs_count pr); lia).
    cbn [items_shallow existsb fst] in Hd. fold (items_shallow shallow xs) in Hd.
    destruct (item_ok e s' p ((items_text text xs ++ pairs_text pr) ++ r) a ps d0 d l f He' Hm1 Lp (ended_stopper _ _ _ _ _ Lp Hu He) ltac:(intros X; apply Hd; rewrite X; reflexivity)) as (v & G & Ev & V).
    destruct (call_loop bare p closing u eq_refl C1 C2 Cu Cs Ch xs pr s' F (add_arg call v) (rev (text e) ++ a) r ps d0 d (after l e) f Hu He Hf Hq Hm2 Hk
      ltac:(intros X; apply Hd; rewrite <- orb_assoc, X, orb_true_r; reflexivity)) as (vs & w & Av & Ew & R).
    exists (v :: vs), (text e ++ w). split; [apply arg_nodes_cons; assumption|]. split.
    + rewrite <- !app_assoc, <- Ew. reflexivity.
    + intros k. rewrite <- !app_assoc. cbn [app]. rewrite app_assoc.
      rewrite (bind_ok _ _ _ _ _ V).
      rewrite (bind_ok _ _ _ _ _ (not_bare v s' _ _ _ _ _ _ (element_keyless v Ev) (ended_not _ _ _ _ He Ch ltac:(discriminate)))).
      rewrite (bind_ok _ _ _ _ _ R). run1. rewrite (eqb_diff _ _ Ca).
      cbn [items_after after_all fst add_args fold_left]. rewrite rev_app_distr, <- !app_assoc. reflexivity.
Qed.
(** ** A block as the last argument *)
Lemma items_loop (bare : bool) p closing R : p = (if bare then BARE_CALL_ARG else CALL_ARG) -> starts closing = false -> isclose closing = true ->
  forall u, stopper p 0 u -> ty u <> T_HashRocket -> (forall d0, stopper p d0 u) ->
  forall xs s a ps d0 d l f, ended u (s :: map snd xs) -> all_fit after (as_item fits) l xs = true ->
  (length (items_text text xs) <= m)%nat -> (items_shallow shallow xs = true -> d0 = 0) ->
  exists vs w, Forall2 stands vs (items_meaning after meaning l xs) /\ s :: items_text text xs = w ++ [u] /\
    forall k call, mloop (length xs + k) (call_body p bare closing) call (PState a (s :: items_text text xs ++ R) ps (d0 :: d) l f) =
    mloop k (call_body p bare closing) (add_args vs call) (PState (rev w ++ a) (u :: R) ps (d0 :: d) (items_after after l xs) f).
Proof.
  intros Ep C1 C2 u _ Ch Su. assert (Lp : listp p = true) by (subst p; destruct bare; reflexivity).
  induction xs as [|[e s'] xs IHx]; intros s a ps d0 d l f He Hf Hm Hd.
  - cbn in He. subst s. exists [], []. split; [constructor|]. split; [reflexivity|]. intros k call. reflexivity.
  - cbn [map snd app] in He. apply ended_cons in He as [Hs He]. apply all_fit_cons in Hf as [He' Hf].
    rewrite items_text_cons in *. rewrite !app_length in Hm. cbn [length Nat.add] in Hm.
    cbn [items_shallow existsb fst] in Hd. fold (items_shallow shallow xs) in Hd.
    destruct (item_ok e s' p (items_text text xs ++ R) (s :: a) ps d0 d l f He' ltac:(clear - Hm; lia) Lp (ended_stopper _ _ _ _ _ Lp (Su d0) He) ltac:(intros X; apply Hd; rewrite X; reflexivity)) as (v & G & Ev & V).
    destruct (IHx s' (rev (text e) ++ s :: a) ps d0 d (after l e) f He Hf ltac:(clear - Hm; lia)
      ltac:(intros X; apply Hd; rewrite X, orb_true_r; reflexivity)) as (vs & w & Av & Ew & Rn).
    exists (v :: vs), (s :: text e ++ w). split; [constructor; assumption|]. split.
    + cbn [app]. rewrite <- !app_assoc, <- Ew. reflexivity.
    + intros k call. cbn [length Nat.add].
      erewrite loop_step; [etransitivity; [exact (Rn k (add_arg call v))|]|].
      * cbn [rev app items_after after_all fst add_args fold_left]. rewrite rev_app_distr, <- !app_assoc. reflexivity.
      * unfold call_body. run. rewrite <- !app_assoc. cbn [app].
        run1. rewrite (item_hd l e (fun t => ttype_eqb t closing) He' (isclose_not _ T_Star C2 eq_refl) (fun t0 St0 => starts_not closing t0 C1 St0)). rewrite (bind_ok _ _ _ _ _ V).
        rewrite (bind_ok _ _ _ _ _ (not_bare v s' _ _ _ _ _ _ (element_keyless v Ev) (ended_not _ _ _ _ He Ch ltac:(discriminate)))). reflexivity.
Qed.
Lemma commas_ended l : forallb (is_a T_Comma) l = true -> l <> [] -> exists u, ty u = T_Comma /\ ended u l.
Proof.
  induction l as [|t l IHl]; intros H N; [contradiction|]. cbn [forallb] in H. apply andb_true_iff in H as [A B]. apply is_a_ty in A.
  destruct l as [|x l]; [exists t; split; [exact A|reflexivity]|]. destruct (IHl B ltac:(discriminate)) as (u & U & V). exists u. split; [exact U|]. split; assumption.
Qed.
Definition block_end (kk : node -> M node) (call : node) : M node :=
  b <- cur_is T_Ampersand ;;
  call <- (if b then a <- parse_block_pass E ;; ret (add_arg call a) else ret call) ;; kk call.
Definition listed_args (call : node) (kk : node -> M node) : M node :=
  arg <- pexpr E CALL_ARG ;;
  h <- starts_bare_hash arg ;;
  call <-
    (if h then a <- parse_call_hash_args E F false T_RParen arg ;; ret (add_arg call a)
     else mloop F (call_body CALL_ARG false T_RParen) (add_arg call arg)) ;;
  block_end kk call.
Lemma closer_all p d0 c : ty c = T_RParen -> stopper p d0 c.
Proof. intros H. apply closer_stopper. unfold closer. rewrite H. reflexivity. Qed.
Lemma pass_tail pr t e c r a ps d0 d l f : (0 < F)%nat ->
  forallb (fun x => is_a T_Comma (pair_end x)) pr = true -> pairs_fit after (as_argument fits) (as_operand fits) l pr = true -> ty t = T_Ampersand -> ty c = T_RParen ->
  as_argument fits (after_all (pair_after after) l pr) e = true -> (length (pairs_text pr ++ t :: text e) < m)%nat ->
  (existsb (pair_shallow shallow) pr || shallow e = true -> d0 = 0) ->
  exists vs, Forall2 stands vs (listed_meaning after meaning l [] pr ++ [sx "block_pass" [meaning (after_all (pair_after after) l pr) e]]) /\
    (forall call kk, listed_args call kk (PState a (pairs_text pr ++ t :: text e ++ c :: r) ps (d0 :: d) l f) =
      kk (add_args vs call) (PState (rev (pairs_text pr ++ t :: text e) ++ a) (c :: r) ps (d0 :: d) (after (after_all (pair_after after) l pr) e) f)) /\
    (forall s a' call kk k, ty s = T_Comma -> a = s :: a' ->
      bind (mloop (S (S k)) (call_body CALL_ARG false T_RParen) call) (block_end kk) (PState a' (s :: pairs_text pr ++ t :: text e ++ c :: r) ps (d0 :: d) l f) =
      kk (add_args vs call) (PState (rev (pairs_text pr ++ t :: text e) ++ a) (c :: r) ps (d0 :: d) (after (after_all (pair_after after) l pr) e) f)).
Proof.
  intros HF Hc Hp Tt Tc He Hm Hd. rewrite app_length in Hm. pose proof (closer_all 0 d0 c Tc) as Sc.
  assert (Ae : fits (after_all (pair_after after) l pr) e = true /\ 0 < lthr (left e) /\ 3 <= right e).
  { unfold as_argument in He. apply andb_true_iff in He as [He _]. apply andb_true_iff in He as [Hf Ha]. apply at_least_3 in Ha as (A & B & _).
    split; [exact Hf|]. split; [apply lthr3 in A; clear - A; lia|exact B]. }
  destruct Ae as (Fe & Le & Re).
  assert (Uc : ty c = T_Comma -> assigns e = false) by (rewrite Tc; discriminate).
  assert (He0 : shallow e = true -> d0 = 0) by (intros X; apply Hd; rewrite X, orb_true_r; reflexivity).
  destruct pr as [|x pr].
  - cbn [pairs_text flat_map app length after_all Nat.add] in *.
    destruct (prefix_ok t e (fun v => N_BlockPass t v) parse_block_pass c CALL_ARG 0 r a ps d0 d l f) as (v & G & V); try assumption.
    + intros E0 F0. rewrite Tt. reflexivity.
    + rewrite Tt. reflexivity.
    + rewrite Tc. reflexivity.
    + intros w. split; reflexivity.
    + intros w n s2 a' V. unfold parse_block_pass. run. change LOWEST with 0. rewrite (bind_ok _ _ _ _ _ V). reflexivity.
    + apply closer_all. exact Tc.
    + rewrite Tc. discriminate.
    + assert (Cm : ttype_eqb (ty c) T_Comma = false) by (rewrite Tc; reflexivity).
      assert (Ca : ttype_eqb (ty c) T_Ampersand = false) by (rewrite Tc; reflexivity).
      assert (Nb : forall a1 l1, starts_bare_hash (N_BlockPass t v) (PState a1 (c :: r) ps (d0 :: d) l1 f) = POk false (PState a1 (c :: r) ps (d0 :: d) l1 f))
        by (intros a1 l1; apply not_bare; [reflexivity|rewrite Tc; discriminate]).
      assert (Lst : forall k call a1 l1 kk, bind (mloop (S k) (call_body CALL_ARG false T_RParen) call) (block_end kk) (PState a1 (c :: r) ps (d0 :: d) l1 f) =
        kk call (PState a1 (c :: r) ps (d0 :: d) l1 f)).
      { intros k call a1 l1 kk. erewrite bind_ok; [|apply loop_done; unfold call_body; run1; rewrite Cm; reflexivity].
        unfold block_end. run1. rewrite Ca. reflexivity. }
      exists [N_BlockPass t v]. split; [constructor; [apply stands_pass; exact (g_stands _ _ _ G)|constructor]|]. cbn [rev] in *. split.
      * intros call kk. unfold listed_args. rewrite (bind_ok _ _ _ _ _ V), (bind_ok _ _ _ _ _ (Nb _ _)).
        assert (X : exists k, F = S k) by (clear - HF; destruct F as [|k]; [lia|exists k; reflexivity]). destruct X as (k & ->).
        rewrite Lst. rewrite <- app_assoc. reflexivity.
      * intros s a' call kk k Ts Ea. subst a. erewrite bind_ok_eq; [|eapply loop_step; unfold call_body; run; rewrite (bind_ok _ _ _ _ _ V), (bind_ok _ _ _ _ _ (Nb _ _)); reflexivity].
        rewrite Lst. rewrite <- app_assoc. reflexivity.
  - destruct (commas_ended (map pair_end (x :: pr))) as (u & Tu & Eu).
    { rewrite <- Hc. clear. induction (x :: pr) as [|y ys IHy]; [reflexivity|]. cbn [map forallb]. rewrite IHy. reflexivity. }
    { discriminate. }
    destruct (pairs_ok false CALL_ARG T_RParen u x pr (t :: text e ++ c :: r) [u] t (text e ++ c :: r) a ps d0 d l f eq_refl eq_refl eq_refl
      (finishes_pass _ _ _ _ _ Tu Tt) ltac:(rewrite Tt; discriminate) (comma_stopper CALL_ARG d0 u eq_refl Tu) Eu Hp ltac:(clear - Hm; lia)
      ltac:(intros X; apply Hd; rewrite X; reflexivity)) as (kn & s1 & v & w & [Av _] & Ew & V & B & W).
    destruct (part_ok m e c 0 r (t :: [u] ++ rev w ++ a) ps d0 d _ f IH Fe ltac:(clear - Hm; cbn [length] in Hm; lia) Le Re Sc Uc He0) as (b & G & Vb).
    assert (Lst : forall call kk, block_end kk call (PState ([u] ++ rev w ++ a) (t :: text e ++ c :: r) ps (d0 :: d) (after_all (pair_after after) l (x :: pr)) f) =
      kk (add_arg call (N_BlockPass t b)) (PState (rev (pairs_text (x :: pr) ++ t :: text e) ++ a) (c :: r) ps (d0 :: d) (after (after_all (pair_after after) l (x :: pr)) e) f)).
    { intros call kk. unfold block_end. run1. rewrite Tt. cbv beta iota. change (ttype_eqb T_Ampersand T_Ampersand) with true. cbv iota.
      unfold parse_block_pass. rewrite ?bind_assoc. run. change LOWEST with 0. rewrite ?bind_assoc. rewrite (bind_ok _ _ _ _ _ Vb). rewrite ?bind_ret. run.
      rewrite Ew. rewrite !rev_app_distr. cbn [rev app]. rewrite <- !app_assoc. reflexivity. }
    exists [v; N_BlockPass t b]. split; [|split].
    + exact (Forall2_app Av (Forall2_cons _ _ (stands_pass t b _ (g_stands _ _ _ G)) (Forall2_nil _))).
    + intros call kk. unfold listed_args. rewrite (bind_ok _ _ _ _ _ V), (bind_ok _ _ _ _ _ B), bind_assoc, (bind_ok _ _ _ _ _ W). run1. apply Lst.
    + intros s a' call kk k Ts Ea. subst a. etransitivity; [|apply (Lst (add_arg call v) kk)].
      apply bind_ok. apply loop_done. unfold call_body. run.
      change (bind cty ?h (PState ?x1 ?x2 ?x3 ?x4 ?x5 ?x6)) with (h (ty (hd no_token x2)) (PState x1 x2 x3 x4 x5 x6)). cbv beta.
      assert (X : ttype_eqb (ty (hd no_token (pairs_text (x :: pr) ++ t :: text e ++ c :: r))) T_RParen = false).
      { apply pairs_fit_cons in Hp as [Hq _]. rewrite pairs_text_cons, <- app_assoc.
        apply (pair_hd x l (fun t => ttype_eqb t T_RParen) _ Hq); [reflexivity|reflexivity|]. intros t0 St. apply starts_not; [reflexivity|exact St]. }
      rewrite X. rewrite (bind_ok _ _ _ _ _ V), (bind_ok _ _ _ _ _ B), (bind_ok _ _ _ _ _ W). reflexivity.
Qed.
Lemma pass_ok xs pr t e c call r a ps d0 d l f :
  forallb (fun x => is_a T_Comma (snd x)) xs = true -> forallb (fun x => is_a T_Comma (pair_end x)) pr = true ->
  all_fit after (as_item fits) l xs = true -> pairs_fit after (as_argument fits) (as_operand fits) (items_after after l xs) pr = true -> ty t = T_Ampersand -> ty c = T_RParen ->
  as_argument fits (after_all (pair_after after) (items_after after l xs) pr) e = true ->
  (length ((items_text text xs ++ pairs_text pr) ++ t :: text e) < m)%nat ->
  (items_shallow shallow xs || existsb (pair_shallow shallow) pr || shallow e = true -> d0 = 0) ->
  exists vs, Forall2 stands vs (args_meaning after meaning l (A_pass t xs pr t e c)) /\
    forall kk, listed_args call kk (PState a ((items_text text xs ++ pairs_text pr) ++ t :: text e ++ c :: r) ps (d0 :: d) l f) =
      kk (add_args vs call) (PState (rev ((items_text text xs ++ pairs_text pr) ++ t :: text e) ++ a) (c :: r) ps (d0 :: d)
        (after (after_all (pair_after after) (items_after after l xs) pr) e) f).
Proof.
  intros Hx Hc Fx Fp Tt Tc He Hm Hd. rewrite !app_length in Hm.
  assert (HF : (0 < F)%nat) by (clear - Hm; cbn [length] in Hm; lia).
  destruct xs as [|[e1 s1] xs].
  - cbn [items_text flat_map app items_after after_all items_shallow existsb orb] in *.
    destruct (pass_tail pr t e c r a ps d0 d l f HF Hc Fp Tt Tc He ltac:(clear - Hm; rewrite app_length; cbn [length Nat.add] in *; lia) Hd) as (vs & S & A & _).
    exists vs. split; [exact S|]. intros kk. apply A.
  - apply all_fit_cons in Fx as [F1 Fx]. rewrite items_text_cons in *. rewrite !app_length in Hm. cbn [length] in Hm.
    destruct (commas_ended (s1 :: map snd xs)) as (u & Tu & Eu).
    { rewrite <- Hx. clear. change (s1 :: map snd xs) with (map snd ((e1, s1) :: xs)). induction ((e1, s1) :: xs) as [|y ys IHy]; [reflexivity|]. cbn [map forallb]. rewrite IHy. reflexivity. }
    { discriminate. }
    pose proof (fun d1 => comma_stopper CALL_ARG d1 u eq_refl Tu) as Su.
    cbn [items_shallow existsb fst] in Hd. fold (items_shallow shallow xs) in Hd.
    destruct (item_ok e1 s1 CALL_ARG (items_text text xs ++ pairs_text pr ++ t :: text e ++ c :: r) a ps d0 d l f F1 ltac:(clear - Hm; lia) eq_refl
      (ended_stopper CALL_ARG d0 u s1 _ eq_refl (Su d0) Eu) ltac:(intros X; apply Hd; rewrite X; reflexivity)) as (v & G & Ev & V).
    destruct (items_loop false CALL_ARG T_RParen (pairs_text pr ++ t :: text e ++ c :: r) eq_refl eq_refl eq_refl u (Su 0) ltac:(rewrite Tu; discriminate) Su
      xs s1 (rev (text e1) ++ a) ps d0 d (after l e1) f Eu Fx ltac:(clear - Hm; lia) ltac:(intros X; apply Hd; rewrite X, orb_true_r; reflexivity))
      as (vs & w & S1 & Ew & R1).
    destruct (pass_tail pr t e c r (u :: rev w ++ rev (text e1) ++ a) ps d0 d (items_after after (after l e1) xs) f HF Hc Fp Tt Tc He
      ltac:(clear - Hm; rewrite app_length; cbn [length Nat.add] in *; lia)
      ltac:(intros X; apply Hd; rewrite <- !orb_assoc; apply orb_true_iff in X as [X|X]; rewrite X, !orb_true_r; reflexivity)) as (vs2 & S2 & _ & B).
    assert (Z : rev (pairs_text pr ++ t :: text e) ++ u :: rev w ++ rev (text e1) ++ a = rev (text e1 ++ (s1 :: items_text text xs) ++ pairs_text pr ++ t :: text e) ++ a).
    { rewrite Ew, !rev_app_distr. cbn [rev app]. rewrite <- !app_assoc. cbn [app]. reflexivity. }
    exists (v :: vs ++ vs2). split.
    + cbn [args_meaning]. unfold listed_meaning, items_meaning, items_after in *. cbn [map_all after_all fst].
      destruct pr as [|x pr]; cbn [app] in *; constructor; try exact G; rewrite <- ?app_assoc; apply Forall2_app; assumption.
    + intros kk. rewrite <- !app_assoc. cbn [app].
      unfold listed_args. rewrite (bind_ok _ _ _ _ _ V).
      rewrite (bind_ok _ _ _ _ _ (not_bare v s1 _ _ _ _ _ _ (element_keyless v Ev) (ended_not u s1 _ T_HashRocket Eu ltac:(rewrite Tu; discriminate) ltac:(discriminate)))).
      assert (X : exists k, F = (length xs + S (S k))%nat).
      { pose proof (items_count xs). exists (F - length xs - 2)%nat. clear - H Hm. lia. }
      destruct X as (k & ->).
      erewrite bind_ok_eq; [|exact (R1 (S (S k)) (add_arg call v))].
      rewrite (B u (rev w ++ rev (text e1) ++ a) _ _ k Tu eq_refl).
      cbn [items_after after_all fst add_args fold_left]. unfold add_args. rewrite fold_left_app. f_equal.
      f_equal. rewrite Z. cbn [app]. rewrite <- ?app_assoc. reflexivity.
Qed.
End Arguments.

(** * RubyCompound: conditionals, loops, [case] and definitions

    [Spine] for the expressions of SpecRuby that a keyword begins.  No code is modelled
    here. *)
From Coq Require Import Strings.String NArith ZArith Bool List Lia.
From Verif Require Import Base Token Node ParserBase ParserModel Sexp SpecRuby RubyTransform RubyNodes RubyBase RubyRun RubyBody RubyExpr RubyOps RubyForms RubyArgs RubyCalls RubyBlock.
Import ListNotations.
Open Scope N_scope.
Open Scope list_scope.

Ltac ands := repeat match goal with H : _ && _ = true |- _ => apply andb_true_iff in H as [? ?] end.
Ltac at_cur :=
  match goal with
  | |- bind cur ?h (PState ?x1 ?x2 ?x3 ?x4 ?x5 ?x6) = _ => change (bind cur h (PState x1 x2 x3 x4 x5 x6)) with (h (hd no_token x2) (PState x1 x2 x3 x4 x5 x6))
  | |- bind cty ?h (PState ?x1 ?x2 ?x3 ?x4 ?x5 ?x6) = _ => change (bind cty h (PState x1 x2 x3 x4 x5 x6)) with (h (ty (hd no_token x2)) (PState x1 x2 x3 x4 x5 x6))
  | |- bind (cur_is ?z) ?h (PState ?x1 ?x2 ?x3 ?x4 ?x5 ?x6) = _ => change (bind (cur_is z) h (PState x1 x2 x3 x4 x5 x6)) with (h (ttype_eqb (ty (hd no_token x2)) z) (PState x1 x2 x3 x4 x5 x6))
  end; cbv beta.

Section Compound.
Variable m : nat.
Hypothesis IH : Main m.
Notation E := (parse_expression m).
Notation F := (m + m + 2)%nat.

Lemma then_closer t : then_ t = true -> closer t = true.
Proof.
  unfold then_. intros H. apply orb_true_iff in H as [H|H]; [apply separator_closer; exact H|]. apply is_a_ty in H. unfold closer. rewrite H. reflexivity.
Qed.
Lemma body_text_eq (b : body rb) : body_text text b = fst b ++ stm_text (snd b).
Proof. reflexivity. Qed.

(** ** The parts of a conditional *)
Lemma if_part b c a r ps d0 d l f : is_divider (ty c) = true -> (length (body_text text b) < m)%nat ->
  body_fits after fits then_separated false returns l b = true -> (body_shallow shallow b = true -> d0 = 0) ->
  exists v, stands v (or_nil (block (body_meaning after meaning l b))) /\
    forall T (k : node -> M T), bind then_or_newline (fun _ => bind (parse_if_body E F) k) (PState a (body_text text b ++ c :: r) ps (d0 :: d) l f) =
    k v (PState (rev (body_text text b) ++ a) (c :: r) ps (d0 :: d) (body_after after l b) f).
Proof.
  intros Ec Hm Hf Hs. destruct b as [s xs]. rewrite body_text_eq in *. cbn [fst snd] in *. unfold body_fits in Hf. cbn [fst snd] in Hf.
  apply andb_true_iff in Hf as [Hf1 Hf2]. rewrite app_length in Hm. destruct (divider_closer c Ec) as [Cc Lc].
  destruct s as [|t s]; [discriminate Hf1|]. cbn [then_separated] in Hf1. apply andb_true_iff in Hf1 as [Ht Hs1]. cbn [length] in Hm.
  unfold then_ in Ht. destruct (separator t) eqn:St.
  - destruct (if_body_ok m IH [] xs c (rev (t :: s) ++ a) r ps d0 d l f Ec ltac:(clear - Hm; lia) eq_refl Hf2 Hs) as (t0 & vs & G & V).
    exists (match vs with [] => N_Nil t0 | _ => block_or_only (t0, vs) end). split; [apply stands_body; exact (goods_stands fst _ _ _ G)|].
    intros T k. unfold then_or_newline. rewrite bind_assoc. rewrite <- app_assoc. cbn [app]. run1.
    assert (Nt : ttype_eqb (ty t) T_ThenKeyword = false) by (unfold separator, is_a in St; apply orb_true_iff in St as [X|X]; apply eqb_eq in X; rewrite X; reflexivity).
    rewrite Nt. rewrite run_next; [|cbn [forallb]; rewrite St, Hs1; reflexivity|eapply stm_line; eassumption].
    cbn [app] in V. rewrite (bind_ok _ _ _ _ _ V). rewrite app_comm_cons, rev_app_distr, <- app_assoc. reflexivity.
  - apply is_a_ty in Ht.
    destruct (if_body_ok m IH s xs c (t :: a) r ps d0 d l f Ec ltac:(clear - Hm; lia) Hs1 Hf2 Hs) as (t0 & vs & G & V).
    exists (match vs with [] => N_Nil t0 | _ => block_or_only (t0, vs) end). split; [apply stands_body; exact (goods_stands fst _ _ _ G)|].
    intros T k. unfold then_or_newline. rewrite bind_assoc. rewrite <- app_assoc. cbn [app]. run.
    rewrite (bind_ok _ _ _ _ _ V). cbn [rev]. rewrite rev_app_distr, <- !app_assoc. reflexivity.
Qed.
Lemma else_part (e : option (token * body rb)) c a r ps d0 d l f : ty c = T_EndKeyword -> (length (else_text text e) < m)%nat ->
  else_fits after fits false returns l e = true ->
  (match e with Some (_, b) => body_shallow shallow b | None => false end = true -> d0 = 0) ->
  exists v, stands v (else_meaning after meaning l e) /\
    is_divider (ty (hd no_token (else_text text e ++ c :: r))) = true /\ ttype_eqb (ty (hd no_token (else_text text e ++ c :: r))) T_ElsifKeyword = false /\
    forall T (k : node -> M T), bind (if ttype_eqb (ty (hd no_token (else_text text e ++ c :: r))) T_ElseKeyword then advance ;;; parse_if_body E F
           else t' <- cur ;; ret (N_Nil t')) k (PState a (else_text text e ++ c :: r) ps (d0 :: d) l f) =
    k v (PState (rev (else_text text e) ++ a) (c :: r) ps (d0 :: d) (else_after after l e) f).
Proof.
  intros Tc Hm Hf Hs. destruct e as [[t b]|]; cbn [else_text else_fits else_meaning else_after app hd rev length] in *.
  - apply andb_true_iff in Hf as [Hf _]. apply andb_true_iff in Hf as [Ht Hf]. apply is_a_ty in Ht.
    destruct b as [s xs]. rewrite body_text_eq in *. cbn [fst snd] in *. unfold body_fits in Hf. cbn [fst snd] in Hf. apply andb_true_iff in Hf as [Hf1 Hf2].
    rewrite app_length in Hm.
    destruct (if_body_ok m IH s xs c (t :: a) r ps d0 d l f ltac:(rewrite Tc; reflexivity) ltac:(clear - Hm; lia) Hf1 Hf2 Hs) as (t0 & vs & G & V).
    exists (match vs with [] => N_Nil t0 | _ => block_or_only (t0, vs) end). split; [apply stands_body; exact (goods_stands fst _ _ _ G)|].
    rewrite Ht. split; [reflexivity|]. split; [reflexivity|]. change (ttype_eqb T_ElseKeyword T_ElseKeyword) with true. cbv iota.
    intros T k. rewrite bind_assoc. run1. rewrite <- app_assoc. rewrite (bind_ok _ _ _ _ _ V). rewrite rev_app_distr, <- !app_assoc. reflexivity.
  - exists (N_Nil c). split; [apply stands_nil|]. rewrite Tc. split; [reflexivity|]. split; [reflexivity|].
    change (ttype_eqb T_EndKeyword T_ElseKeyword) with false. cbv iota. intros T k. rewrite bind_assoc. run1. run1. reflexivity.
Qed.
(** A condition, in front of [then] or of a separator. *)
Lemma condition_ok c s w r a ps d0 d l f : fits l c = true -> returns c = false -> then_separated s = true -> (length (text c) < m)%nat ->
  (shallow c = true -> d0 = 0) ->
  exists v, good l c v /\
    pexpr E LOWEST (PState a (text c ++ (s ++ w) ++ r) ps (d0 :: d) l f) = POk v (PState (rev (text c) ++ a) ((s ++ w) ++ r) ps (d0 :: d) (after l c) f).
Proof.
  intros Hf Hr Hs Hm Hd. destruct s as [|t s]; [discriminate Hs|]. cbn [then_separated] in Hs. apply andb_true_iff in Hs as [Ht _].
  cbn [app]. apply (statement_ok m IH); try assumption; [apply then_closer; exact Ht|rewrite Hr; discriminate].
Qed.

Definition elsif_text (xs : list (token * (rb * body rb))) : list token :=
  flat_map (fun x => fst x :: text (fst (snd x)) ++ body_text text (snd (snd x))) xs.
Definition elsif_fits (l : list str) (xs : list (token * (rb * body rb))) : bool :=
  forallb (fun b => b)
        (map_all (elsif_after after)
           (fun l x =>
              is_a T_ElsifKeyword (fst x) && fits l (fst (snd x)) && at_least EXPRESSION (fst (snd x)) &&
              negb (returns (fst (snd x))) &&
              body_fits after fits then_separated false returns (after l (fst (snd x))) (snd (snd x))) l xs).
Lemma if_branch_ok : forall xs n pm k c b e t a r ps d0 d l f,
  fits l c = true -> returns c = false -> body_fits after fits then_separated false returns (after l c) b = true ->
  elsif_fits (body_after after (after l c) b) xs = true ->
  else_fits after fits false returns (after_all (elsif_after after) (body_after after (after l c) b) xs) e = true -> ty t = T_EndKeyword ->
  (shallow c = true -> d0 = 0) -> (body_shallow shallow b = true -> d0 = 0) ->
  (existsb (fun x => shallow (fst (snd x)) || body_shallow shallow (snd (snd x))) xs = true -> d0 = 0) ->
  (match e with Some (_, b) => body_shallow shallow b | None => false end = true -> d0 = 0) ->
  (length (text c ++ body_text text b ++ elsif_text xs ++ else_text text e) < m)%nat -> (length xs < n)%nat ->
  exists t' vc va vb, 
    stands (N_If t' vc va vb) (sx "if" [meaning l c; or_nil (block (body_meaning after meaning (after l c) b));
               elsif_meaning after meaning (body_after after (after l c) b) xs
                 (else_meaning after meaning (after_all (elsif_after after) (body_after after (after l c) b) xs) e)]) /\
    if_branch E F n pm (PState a (k :: text c ++ body_text text b ++ elsif_text xs ++ else_text text e ++ t :: r) ps (d0 :: d) l f) =
    POk (N_If t' vc va vb) (PState (t :: rev (else_text text e) ++ rev (elsif_text xs) ++ rev (body_text text b) ++ rev (text c) ++ k :: a) r ps (d0 :: d)
      (else_after after (after_all (elsif_after after) (body_after after (after l c) b) xs) e) f).
Proof.
  induction xs as [|[k' [c' b']] xs IHx]; intros n pm k c b e t a r ps d0 d l f Fc Rc Fb Fx Fe Tt S1 S2 S3 S4 Hm Hn; (destruct n as [|n]; [exfalso; clear - Hn; cbn in Hn; lia|]).
  - cbn [elsif_text flat_map app rev after_all elsif_meaning] in *. rewrite !app_length in Hm.
    destruct (else_part e t (rev (body_text text b) ++ rev (text c) ++ k :: a) r ps d0 d (body_after after (after l c) b) f Tt ltac:(clear - Hm; lia) Fe S4) as (vb & Sb & Db & Nb & Vb).
    destruct (else_text text e ++ t :: r) as [|h w] eqn:Eh; [destruct (else_text text e); discriminate Eh|]. cbn [hd] in Db, Nb, Vb.
    destruct (if_part b h (rev (text c) ++ k :: a) w ps d0 d (after l c) f Db ltac:(clear - Hm; lia) Fb S2) as (va & Sa & Va).
    destruct (condition_ok c (fst b) (stm_text (snd b)) (h :: w) (k :: a) ps d0 d l f Fc Rc ltac:(unfold body_fits in Fb; ands; assumption) ltac:(clear - Hm; lia) S1) as (vc & Gc & Vc).
    rewrite <- body_text_eq in Vc.
    exists k, vc, va, vb. split; [apply stands_if; [exact (g_stands _ _ _ Gc)|exact Sa|exact Sb]|].
    cbn [if_branch]. run1. run1. rewrite (bind_ok _ _ _ _ _ Vc). cbv zeta.
    replace (if pm then match_condition vc else vc) with vc by (rewrite (plain_condition vc (g_plain _ _ _ Gc)); destruct pm; reflexivity).
    rewrite Va. run1. rewrite Nb. rewrite Vb. run. reflexivity.
  - cbn [elsif_text flat_map fst snd] in *. fold (elsif_text xs) in *. cbn [existsb fst snd map_all forallb elsif_meaning after_all] in *.
    unfold elsif_fits in Fx. cbn [map_all forallb fst snd] in Fx. apply andb_true_iff in Fx as [Fx1 Fx2].
    apply andb_true_iff in Fx1 as [Fx1 Fb']. apply andb_true_iff in Fx1 as [Fx1 Rc']. apply andb_true_iff in Fx1 as [Fx1 _]. apply andb_true_iff in Fx1 as [Tk' Fc'].
    apply is_a_ty in Tk'. apply negb_true_iff in Rc'. unfold elsif_after at 2 in Fx2. unfold elsif_after at 2 in Fe. cbn [fst snd] in Fx2, Fe.
    rewrite !app_length in Hm. cbn [length] in Hm. rewrite !app_length in Hm.
    destruct (IHx n false k' c' b' e t (rev (body_text text b) ++ rev (text c) ++ k :: a) r ps d0 d (body_after after (after l c) b) f Fc' Rc' Fb' Fx2 Fe Tt
      ltac:(intros X; apply S3; rewrite X; reflexivity) ltac:(intros X; apply S3; rewrite X, orb_true_r; reflexivity) ltac:(intros X; apply S3; rewrite X, orb_true_r; reflexivity) S4
      ltac:(rewrite !app_length; clear - Hm; lia) ltac:(cbn [length] in Hn; clear - Hn; lia)) as (t' & vc' & va' & vb' & Sb & Vb).
    destruct (if_part b k' (rev (text c) ++ k :: a) (text c' ++ body_text text b' ++ elsif_text xs ++ else_text text e ++ t :: r) ps d0 d (after l c) f ltac:(rewrite Tk'; reflexivity) ltac:(clear - Hm; lia) Fb S2) as (va & Sa & Va).
    destruct (condition_ok c (fst b) (stm_text (snd b)) (k' :: text c' ++ body_text text b' ++ elsif_text xs ++ else_text text e ++ t :: r) (k :: a) ps d0 d l f Fc Rc ltac:(unfold body_fits in Fb; ands; assumption) ltac:(clear - Hm; lia) S1) as (vc & Gc & Vc).
    rewrite <- body_text_eq in Vc.
    exists (hd no_token r), vc, va, (N_If t' vc' va' vb'). split; [apply stands_if; [exact (g_stands _ _ _ Gc)|exact Sa|exact Sb]|].
    rewrite <- !app_assoc. cbn [app]. rewrite <- !app_assoc.
    cbn [if_branch]. run1. run1. rewrite (bind_ok _ _ _ _ _ Vc). cbv zeta.
    replace (if pm then match_condition vc else vc) with vc by (rewrite (plain_condition vc (g_plain _ _ _ Gc)); destruct pm; reflexivity).
    rewrite Va. run1. rewrite Tk'. change (ttype_eqb T_ElsifKeyword T_ElsifKeyword) with true. cbv iota.
    rewrite (bind_ok _ _ _ _ _ Vb). at_cur. cbn [rev hd]. rewrite !rev_app_distr, <- !app_assoc. reflexivity.
Qed.
Lemma elsif_count xs : (length xs <= length (elsif_text xs))%nat.
Proof. induction xs as [|x xs IHx]; [cbn; lia|]. unfold elsif_text in *. cbn [flat_map length app]. rewrite !app_length. lia. Qed.

Lemma spine_if k c b xs e t : Spine m (R_if k c b xs e t).
Proof.
  intros p ia u r a ps d0 d l f Hm K. pose proof (f_fits _ _ _ _ _ _ K) as Hf. cbn [fits] in Hf.
  apply andb_true_iff in Hf as [Hf Tt]. apply andb_true_iff in Hf as [Hf Fe]. apply andb_true_iff in Hf as [Hf Fx].
  apply andb_true_iff in Hf as [Hf Fb]. apply andb_true_iff in Hf as [Hf Rc]. apply andb_true_iff in Hf as [Hf _].
  apply andb_true_iff in Hf as [Tk Fc]. apply is_a_ty in Tk, Tt. apply negb_true_iff in Rc.
  pose proof (f_shallow _ _ _ _ _ _ K) as Sk. cbn [shallow] in Sk.
  cbn [text] in Hm. fold (elsif_text xs) in Hm. cbn [length] in Hm. rewrite !app_length in Hm. cbn [length] in Hm. pose proof (elsif_count xs) as Ct.
  destruct (if_branch_ok xs F true k c b e t a (u :: r) (p :: ps) d0 d l f Fc Rc Fb Fx Fe Tt) as (t' & vc & va & vb & S & V).
  { intros X. apply Sk. rewrite X. reflexivity. } { intros X. apply Sk. rewrite X, !orb_true_r. reflexivity. }
  { intros X. apply Sk. rewrite X, !orb_true_r. reflexivity. } { intros X. apply Sk. rewrite X, !orb_true_r. reflexivity. }
  { rewrite !app_length. clear - Hm. lia. } { clear - Hm Ct. lia. }
  exists (N_If t' vc va vb), 0%nat. split; [|split; [apply Nat.le_0_l|]].
  - apply good_ordinary; try reflexivity; [exact S|]. symmetry. apply integer_tag. reflexivity.
  - cbn [text after app]. fold (elsif_text xs). rewrite <- !app_assoc. cbn [app].
    refine (reach_null m p ia a (k :: text c ++ body_text text b ++ elsif_text xs ++ else_text text e ++ t :: u :: r) (p :: ps) (d0 :: d) l f (parse_if E F) _ _ _ _).
    + cbn [hd]. rewrite Tk. reflexivity.
    + unfold parse_if. rewrite V. cbn [rev]. rewrite !rev_app_distr. cbn [rev app]. rewrite <- !app_assoc. reflexivity.
Qed.
Lemma spine_unless k c b e t : Spine m (R_unless k c b e t).
Proof.
  intros p ia u r a ps d0 d l f Hm K. pose proof (f_fits _ _ _ _ _ _ K) as Hf. cbn [fits] in Hf.
  apply andb_true_iff in Hf as [Hf Tt]. apply andb_true_iff in Hf as [Hf Fe].
  apply andb_true_iff in Hf as [Hf Fb]. apply andb_true_iff in Hf as [Hf Rc]. apply andb_true_iff in Hf as [Hf _].
  apply andb_true_iff in Hf as [Tk Fc]. apply is_a_ty in Tk, Tt. apply negb_true_iff in Rc.
  pose proof (f_shallow _ _ _ _ _ _ K) as Sk. cbn [shallow] in Sk.
  cbn [text] in Hm. cbn [length] in Hm. rewrite !app_length in Hm. cbn [length] in Hm.
  destruct (else_part e t (rev (body_text text b) ++ rev (text c) ++ k :: a) (u :: r) (p :: ps) d0 d (body_after after (after l c) b) f Tt ltac:(clear - Hm; lia) Fe
    ltac:(intros X; apply Sk; rewrite X, !orb_true_r; reflexivity)) as (vb & Sb & Db & Nb & Vb).
  cbn [text after app rev]. rewrite <- !app_assoc. cbn [app].
  destruct (else_text text e ++ t :: u :: r) as [|h w] eqn:Eh; [destruct (else_text text e); discriminate Eh|]. cbn [hd] in Db, Nb, Vb.
  destruct (if_part b h (rev (text c) ++ k :: a) w (p :: ps) d0 d (after l c) f Db ltac:(clear - Hm; lia) Fb ltac:(intros X; apply Sk; rewrite X, !orb_true_r; reflexivity)) as (va & Sa & Va).
  destruct (condition_ok c (fst b) (stm_text (snd b)) (h :: w) (k :: a) (p :: ps) d0 d l f Fc Rc ltac:(unfold body_fits in Fb; ands; assumption) ltac:(clear - Hm; lia)
    ltac:(intros X; apply Sk; rewrite X; reflexivity)) as (vc & Gc & Vc).
  rewrite <- body_text_eq in Vc.
  exists (N_If k vc vb va), 0%nat. split; [|split; [apply Nat.le_0_l|]].
  - apply good_ordinary; try reflexivity; [apply stands_if; [exact (g_stands _ _ _ Gc)|exact Sb|exact Sa]|]. symmetry. apply integer_tag. reflexivity.
  - refine (reach_null m p ia a (k :: text c ++ body_text text b ++ h :: w) (p :: ps) (d0 :: d) l f (parse_unless E F) _ _ _ _).
    + cbn [hd]. rewrite Tk. reflexivity.
    + unfold parse_unless. run1. run1. rewrite (bind_ok _ _ _ _ _ Vc). cbv zeta. rewrite (plain_condition vc (g_plain _ _ _ Gc)).
      rewrite Va. run1. rewrite Vb. run. rewrite !rev_app_distr. cbn [rev app]. rewrite <- !app_assoc. reflexivity.
Qed.

(** ** Loops *)
Lemma ends_end : ends (fun x => ttype_eqb x T_EndKeyword).
Proof. split; [reflexivity|]. split; [reflexivity|]. intros x Sx. apply starts_not; [reflexivity|exact Sx]. Qed.
Lemma end_closer t : ty t = T_EndKeyword -> closer t = true /\ is_end_of_line (ty t) = false.
Proof. unfold closer. intros ->. split; reflexivity. Qed.
Lemma spine_while k c b t : Spine m (R_while k c b t).
Proof.
  intros p ia u r a ps d0 d l f Hm K. pose proof (f_fits _ _ _ _ _ _ K) as Hf. cbn [fits] in Hf.
  apply andb_true_iff in Hf as [Hf Tt]. apply andb_true_iff in Hf as [Hf Fb]. apply andb_true_iff in Hf as [Hf Sc].
  apply andb_true_iff in Hf as [Hf Rc]. apply andb_true_iff in Hf as [Hf _].
  apply andb_true_iff in Hf as [Tk Fc]. apply is_a_ty in Tt. apply negb_true_iff in Rc, Sc.
  assert (T : ty k = T_WhileKeyword \/ ty k = T_UntilKeyword) by (apply orb_true_iff in Tk as [X|X]; apply is_a_ty in X; auto).
  cbn [text] in Hm. cbn [length] in Hm. rewrite !app_length in Hm. cbn [length] in Hm.
  destruct b as [s xs]. unfold body_fits in Fb. rewrite body_text_eq in Hm. cbn [fst snd] in *. apply andb_true_iff in Fb as [Fs Fx].
  destruct s as [|x s]; [discriminate Fs|]. cbn [separated] in Fs. rewrite app_length in Hm. cbn [length] in Hm.
  destruct (end_closer t Tt) as [Ct Lt].
  assert (Sx : separator x = true) by (cbn [forallb] in Fs; ands; assumption).
  destruct (body_ok m IH None (fun x => ttype_eqb x T_EndKeyword) ([], xs) t (rev (x :: s) ++ rev (text c) ++ k :: a) (u :: r) (p :: ps) (d0 :: d) (after l c) f
    ltac:(rewrite Tt; reflexivity) Ct Lt ends_end ltac:(rewrite body_text_eq; cbn [fst snd app]; clear - Hm; lia) eq_refl Fx) as (t0 & vs & G & V).
  pose proof (separator_closer x Sx) as Cx.
  destruct (IH c LOWEST IA_CURLY_ONLY x (s ++ stm_text xs ++ t :: u :: r) (k :: a) (p :: ps) d0 d l f ltac:(clear - Hm; lia)) as (vc & Gc & Vc).
  { constructor; try assumption.
    - apply closer_okf. exact Cx.
    - apply lthr_pos.
    - rewrite closer_level by exact Cx. apply N.le_0_l.
    - discriminate.
    - rewrite Sc. discriminate.
    - intros H. exfalso. eapply closer_not; [exact Cx| |exact H]. reflexivity.
    - intros [H|H]; exfalso; (eapply closer_not; [exact Cx| |exact H]; reflexivity).
    - intros H; exfalso; (eapply closer_not; [exact Cx| |exact H]; reflexivity).
    - rewrite Rc. discriminate. }
  { rewrite closer_level by exact Cx. apply N.le_0_l. }
  { intros H. exfalso. eapply closer_not; [exact Cx| |exact H]. reflexivity. }
  exists (if ttype_eqb (ty k) T_UntilKeyword then N_Until k vc (t0, vs) true else N_While k vc (t0, vs) true), 0%nat. split; [|split; [apply Nat.le_0_l|]].
  - assert (St := goods_stands fst _ _ _ G). destruct T as [T|T]; rewrite T; apply good_ordinary; try reflexivity; cbn [meaning]; rewrite T.
    + change (ttype_eqb T_WhileKeyword T_UntilKeyword) with false. cbv iota. apply (stands_while _ _ _ _ true); [exact (g_stands _ _ _ Gc)|exact St].
    + symmetry. apply integer_tag. reflexivity.
    + change (ttype_eqb T_UntilKeyword T_UntilKeyword) with true. cbv iota. apply (stands_until _ _ _ _ true); [exact (g_stands _ _ _ Gc)|exact St].
    + symmetry. apply integer_tag. reflexivity.
  - cbn [text after app]. rewrite body_text_eq. cbn [fst snd app]. rewrite <- !app_assoc. cbn [app]. rewrite <- !app_assoc. cbn [app].
    refine (reach_null m p ia a (k :: text c ++ x :: s ++ stm_text xs ++ t :: u :: r) (p :: ps) (d0 :: d) l f (parse_while E F) _ _ _ _).
    + cbn [hd]. destruct T as [T|T]; rewrite T; reflexivity.
    + unfold parse_while. run1. run1. rewrite (bind_ok _ _ _ _ _ Vc). cbv zeta. rewrite (plain_condition vc (g_plain _ _ _ Gc)). run1.
      rewrite (eqb_diff (ty x) T_DoKeyword) by (intros H; eapply closer_not; [exact Cx| |exact H]; reflexivity).
      rewrite run_next; [|exact Fs|eapply stm_line; eassumption].
      unfold parse_body_to. rewrite body_text_eq in V. cbn [fst snd app] in V. rewrite (bind_ok _ _ _ _ _ V).
      destruct T as [T|T]; run; cbn [rev]; rewrite !rev_app_distr; cbn [rev app]; rewrite !rev_app_distr; cbn [rev]; rewrite <- !app_assoc; reflexivity.
Qed.
End Compound.

(** * RubyDef: [case] expressions and definitions of methods, classes and modules

    [Spine] for the remaining expressions of SpecRuby.  No code is modelled here. *)
From Coq Require Import Strings.String NArith ZArith Bool List Lia.
From Verif Require Import Base Token Node ParserBase ParserModel Sexp SpecRuby RubyTransform RubyNodes RubyBase RubyRun RubyBody RubyExpr RubyOps RubyForms RubyArgs RubyCalls RubyBlock RubyCompound.
Import ListNotations.
Open Scope N_scope.
Open Scope list_scope.

Section Def.
Variable m : nat.
Hypothesis IH : Main m.
Notation E := (parse_expression m).
Notation F := (m + m + 2)%nat.

(** ** Case *)
Lemma run_then {A} s w (k : unit -> M A) a ps d l f : then_separated s = true -> is_end_of_line (ty (hd no_token w)) = false ->
  bind then_or_next k (PState a (s ++ w) ps d l f) = k tt (PState (rev s ++ a) w ps d l f).
Proof.
  intros Hs Hw. destruct s as [|t s]; [discriminate Hs|]. cbn [then_separated] in Hs. apply andb_true_iff in Hs as [Ht Hs].
  unfold then_or_next. rewrite bind_assoc. cbn [app]. run1. unfold then_ in Ht. destruct (separator t) eqn:St.
  - assert (Nt : ttype_eqb (ty t) T_ThenKeyword = false) by (unfold separator, is_a in St; apply orb_true_iff in St as [X|X]; apply eqb_eq in X; rewrite X; reflexivity).
    rewrite Nt. apply run_next; [cbn [forallb]; rewrite St; exact Hs|exact Hw].
  - apply is_a_ty in Ht. rewrite Ht. change (ttype_eqb T_ThenKeyword T_ThenKeyword) with true. cbv iota. rewrite bind_assoc. run1.
    rewrite run_skip by assumption. cbn [rev]. rewrite <- app_assoc. reflexivity.
Qed.
Definition tests_text (xs : list (token * rb)) : list token := flat_map (fun y => fst y :: text (snd y)) xs.
Definition tests_ok (l : list str) (xs : list (token * rb)) : bool :=
  forallb (fun b => b) (map_all (fun l x => after l (snd x)) (fun l x => as_argument fits l (snd x)) l xs).
Lemma tests_count xs : (length xs <= length (tests_text xs))%nat.
Proof. induction xs as [|x xs IHx]; [cbn; lia|]. unfold tests_text in *. cbn [flat_map length app]. rewrite app_length. lia. Qed.
Lemma tests_loop : forall xs n acc z a r ps d0 d l f, forallb (is_a T_Comma) (map fst xs) = true -> tests_ok l xs = true ->
  (existsb (fun y => shallow (snd y)) xs = true -> d0 = 0) -> (length (tests_text xs) <= m)%nat -> (length xs < n)%nat -> closer z = true ->
  exists vs, goods snd l xs vs /\
    mloop n (fun acc => b <- cur_is T_Comma ;; if b then advance ;;; n <- pexpr E ARRAY ;; ret (inl (acc ++ [n])) else ret (inr acc)) acc
      (PState a (tests_text xs ++ z :: r) ps (d0 :: d) l f) =
    POk (acc ++ vs) (PState (rev (tests_text xs) ++ a) (z :: r) ps (d0 :: d) (tests_after after l xs) f).
Proof.
  induction xs as [|[k e] xs IHx]; intros n acc z a r ps d0 d l f Hk Hf Hs Hm Hn Cz; (destruct n as [|n]; [exfalso; clear - Hn; cbn in Hn; lia|]).
  - exists []. split; [exact I|]. rewrite app_nil_r. cbn [tests_text flat_map app rev]. apply loop_done. run1.
    rewrite (eqb_diff (ty z) T_Comma) by (intros H; eapply closer_not; [exact Cz| |exact H]; reflexivity). reflexivity.
  - cbn [map fst forallb] in Hk. apply andb_true_iff in Hk as [Tk Hk]. apply is_a_ty in Tk. unfold tests_ok in Hf. cbn [map_all forallb snd] in Hf.
    apply andb_true_iff in Hf as [Hf1 Hf2]. cbn [existsb snd] in Hs. cbn [tests_text flat_map fst snd length app] in *. fold (tests_text xs) in *.
    rewrite app_length in Hm. cbn [length] in Hn.
    assert (Sz : exists u w, tests_text xs ++ z :: r = u :: w /\ stopper ARRAY d0 u).
    { destruct xs as [|[k2 e2] xs]; cbn [tests_text flat_map app fst].
      - eexists; eexists. split; [reflexivity|]. apply closer_stopper. exact Cz.
      - cbn [map fst forallb] in Hk. apply andb_true_iff in Hk as [Tk2 _]. apply is_a_ty in Tk2.
        eexists; eexists. split; [reflexivity|]. apply comma_stopper; [reflexivity|exact Tk2]. }
    destruct Sz as (u & w & Ez & Su).
    destruct (argument_ok m IH e u ARRAY w (k :: a) ps d0 d l f Hf1 ltac:(clear - Hm; lia) eq_refl Su ltac:(intros X; apply Hs; rewrite X; reflexivity)) as (v & G & V).
    destruct (IHx n (acc ++ [v]) z (rev (text e) ++ k :: a) r ps d0 d (after l e) f Hk Hf2 ltac:(intros X; apply Hs; rewrite X, orb_true_r; reflexivity) ltac:(clear - Hm; lia) ltac:(clear - Hn; lia) Cz) as (vs & Gs & R).
    exists (v :: vs). split; [split; assumption|]. rewrite <- app_assoc.
    etransitivity; [apply loop_step|].
    { run. rewrite Ez. rewrite (bind_ok _ _ _ _ _ V). rewrite <- Ez. reflexivity. }
    etransitivity; [exact R|]. rewrite <- app_assoc. cbn [app rev tests_after after_all snd]. rewrite rev_app_distr, <- !app_assoc. reflexivity.
Qed.
Definition whens_text (xs : list (list (token * rb) * body rb)) : list token :=
  flat_map (fun x => tests_text (fst x) ++ body_text text (snd x)) xs.
Definition whens_ok (l : list str) (xs : list (list (token * rb) * body rb)) : bool :=
  forallb (fun b => b)
        (map_all (when_after after)
           (fun l x =>
              tests_fit after (as_argument fits) l (fst x) &&
              body_fits after fits then_separated true returns (tests_after after l (fst x)) (snd x)) l xs).
Definition case_round (ct : token) (subject : node) (acc : list node * option (token * list node)) :=
       let '(nodes, els) := acc in
       t <- cur ;;
       if ttype_eqb (ty t) T_EndKeyword then
         expect T_EndKeyword "case end" ;;;
         advance ;;;
         ret (inr (N_Case ct subject nodes els))
       else
         match ty t with
         | T_WhenKeyword =>
             advance ;;;
             l <- parse_comma_separated_expressions E F [] ;;
             then_or_next ;;;
             body <- parse_case_body E F T_WhenKeyword ;;
             ret (inl (nodes ++ [N_CaseWhen t (N_Array t l) body], els))
         | T_InKeyword =>
             advance ;;;
             p <- parse_case_in_patterns E F ;;
             then_or_next ;;;
             body <- parse_case_body E F T_InKeyword ;;
             ret (inl (nodes ++ [N_CaseIn t p body], els))
         | T_ElseKeyword =>
             match nodes with
             | [] => unexpected "case 'when' or 'in'"
             | _ =>
                 advance ;;;
                 skip_newlines ;;;
                 body <- parse_body_to E F T_EndKeyword ;;
                 expect T_EndKeyword "case end" ;;;
                 ret (inl (nodes, Some body))
             end
         | _ => unexpected "case when keyword"
         end.
Lemma when_ok x c ct sub nodes a r ps d0 d l f : case_stop (ty c) = true ->
  tests_fit after (as_argument fits) l (fst x) = true ->
  body_fits after fits then_separated true returns (tests_after after l (fst x)) (snd x) = true ->
  (existsb (fun y => shallow (snd y)) (fst x) || body_shallow shallow (snd x) = true -> d0 = 0) ->
  (length (tests_text (fst x) ++ body_text text (snd x)) < m)%nat ->
  exists v, stands v (when_meaning after meaning l x) /\
    case_round ct sub (nodes, None) (PState a ((tests_text (fst x) ++ body_text text (snd x)) ++ c :: r) ps (d0 :: d) l f) =
    POk (inl (nodes ++ [v], None)) (PState (rev (tests_text (fst x) ++ body_text text (snd x)) ++ a) (c :: r) ps (d0 :: d) (when_after after l x) f).
Proof.
  intros Ec Hf Hb Hs Hm. destruct x as [ts [s xs]]. cbn [fst snd] in *. rewrite body_text_eq in *. cbn [fst snd] in *. unfold body_fits in Hb. cbn [fst snd] in Hb.
  apply andb_true_iff in Hb as [Hb1 Hb2]. unfold tests_fit in Hf. apply andb_true_iff in Hf as [Hf Hk]. fold (tests_ok l ts) in Hf.
  destruct ts as [|[k e] ts]; [discriminate Hk|]. cbn [map fst] in Hk. apply andb_true_iff in Hk as [Tk Hk]. apply is_a_ty in Tk.
  unfold tests_ok in Hf. cbn [map_all forallb snd] in Hf. apply andb_true_iff in Hf as [Hf1 Hf2].
  cbn [existsb snd] in Hs. cbn [tests_text flat_map fst snd length app] in *. fold (tests_text ts) in *. rewrite !app_length in Hm.
  destruct s as [|z s]; [discriminate Hb1|]. assert (Cz : closer z = true) by (cbn [then_separated] in Hb1; ands; apply then_closer; assumption).
  destruct (case_closer c Ec) as [Cc Lc]. pose proof (tests_count ts) as Ct.
  assert (Sz : exists u w, tests_text ts ++ z :: s ++ stm_text xs ++ c :: r = u :: w /\ stopper ARRAY d0 u).
  { destruct ts as [|[k2 e2] ts]; cbn [tests_text flat_map app fst].
    - eexists; eexists. split; [reflexivity|]. apply closer_stopper. exact Cz.
    - cbn [map fst forallb] in Hk. apply andb_true_iff in Hk as [Tk2 _]. apply is_a_ty in Tk2.
      eexists; eexists. split; [reflexivity|]. apply comma_stopper; [reflexivity|exact Tk2]. }
  destruct Sz as (u & w & Ez & Su). cbn [length] in Hm.
  destruct (argument_ok m IH e u ARRAY w (k :: a) ps d0 d l f Hf1 ltac:(clear - Hm; lia) eq_refl Su ltac:(intros X; apply Hs; rewrite X; reflexivity)) as (v & G & V).
  destruct (tests_loop ts F [v] z (rev (text e) ++ k :: a) (s ++ stm_text xs ++ c :: r) ps d0 d (after l e) f Hk Hf2
    ltac:(intros X; apply Hs; rewrite X, orb_true_r; reflexivity) ltac:(clear - Hm; lia) ltac:(clear - Hm Ct; lia) Cz) as (vs & Gs & R).
  destruct (case_body_ok m IH xs c (rev (z :: s) ++ rev (tests_text ts) ++ rev (text e) ++ k :: a) r ps d0 d (tests_after after (after l e) ts) f Ec ltac:(clear - Hm; lia) Hb2
    ltac:(intros X; apply Hs; unfold body_shallow; cbn [snd]; rewrite X, !orb_true_r; reflexivity)) as (t0 & ws & Gw & W).
  exists (N_CaseWhen k (N_Array k (v :: vs)) (t0, ws)). split.
  - unfold when_meaning. cbn [fst snd map_all]. apply stands_when; [|exact (goods_stands fst _ _ _ Gw)]. apply stands_array.
    constructor; [exact (g_stands _ _ _ G)|exact (goods_stands snd _ _ _ Gs)].
  - unfold case_round. run1. rewrite Tk. change (ttype_eqb T_WhenKeyword T_EndKeyword) with false. cbv iota. run1.
    unfold parse_comma_separated_expressions. rewrite bind_assoc. rewrite <- !app_assoc. cbn [app]. rewrite Ez. rewrite (bind_ok _ _ _ _ _ V). rewrite <- Ez.
    unfold comma_items. etransitivity; [eapply bind_ok; exact R|]. cbv beta. rewrite app_comm_cons. rewrite (run_then (z :: s)); [|exact Hb1|eapply stm_line; eassumption].
    rewrite (bind_ok _ _ _ _ _ W). cbn [rev]. rewrite !rev_app_distr. cbn [rev]. rewrite !rev_app_distr. cbn [rev]. rewrite <- !app_assoc. reflexivity.
Qed.
Lemma whens_loop ct sub : forall xs j nodes c a r ps d0 d l f, case_stop (ty c) = true -> whens_ok l xs = true ->
  (existsb (fun x => existsb (fun y => shallow (snd y)) (fst x) || body_shallow shallow (snd x)) xs = true -> d0 = 0) ->
  (length (whens_text xs) < m)%nat ->
  exists vs, Forall2 stands vs (map_all (when_after after) (when_meaning after meaning) l xs) /\ length vs = length xs /\
    mloop (length xs + j) (case_round ct sub) (nodes, None) (PState a (whens_text xs ++ c :: r) ps (d0 :: d) l f) =
    mloop j (case_round ct sub) (nodes ++ vs, None) (PState (rev (whens_text xs) ++ a) (c :: r) ps (d0 :: d) (after_all (when_after after) l xs) f).
Proof.
  induction xs as [|x xs IHx]; intros j nodes c a r ps d0 d l f Ec Hf Hs Hm.
  - exists []. split; [constructor|]. split; [reflexivity|]. rewrite app_nil_r. reflexivity.
  - unfold whens_ok in Hf. cbn [map_all forallb] in Hf. apply andb_true_iff in Hf as [Hf Hf2]. apply andb_true_iff in Hf as [Hf1 Hb]. fold (whens_ok (when_after after l x) xs) in Hf2.
    cbn [existsb] in Hs. cbn [whens_text flat_map] in *. fold (whens_text xs) in *. rewrite app_length in Hm.
    assert (Sz : exists u w, whens_text xs ++ c :: r = u :: w /\ case_stop (ty u) = true).
    { destruct xs as [|[ts b] xs]; [eexists; eexists; split; [reflexivity|exact Ec]|]. cbn [whens_text flat_map fst snd].
      unfold whens_ok in Hf2. cbn [map_all forallb fst snd] in Hf2. apply andb_true_iff in Hf2 as [Hf2 _]. apply andb_true_iff in Hf2 as [Hf2 _].
      unfold tests_fit in Hf2. apply andb_true_iff in Hf2 as [_ Hk]. destruct ts as [|[k e] ts]; [discriminate Hk|]. cbn [map fst] in Hk. apply andb_true_iff in Hk as [Tk _].
      apply is_a_ty in Tk. cbn [tests_text flat_map fst app]. eexists; eexists. split; [reflexivity|]. rewrite Tk. reflexivity. }
    destruct Sz as (u & w & Ez & Su).
    destruct (when_ok x u ct sub nodes a w ps d0 d l f Su Hf1 Hb ltac:(intros X; apply Hs; rewrite X; reflexivity) ltac:(clear - Hm; lia)) as (v & Sv & V).
    destruct (IHx j (nodes ++ [v]) c (rev (tests_text (fst x) ++ body_text text (snd x)) ++ a) r ps d0 d (when_after after l x) f Ec Hf2 ltac:(intros X; apply Hs; rewrite X, orb_true_r; reflexivity) ltac:(clear - Hm; lia))
      as (vs & Svs & Lv & R).
    exists (v :: vs). split; [constructor; assumption|]. split; [cbn [length]; rewrite Lv; reflexivity|].
    cbn [length Nat.add]. etransitivity; [apply loop_step; rewrite <- app_assoc, Ez; exact V|]. rewrite <- Ez. etransitivity; [exact R|].
    rewrite <- app_assoc. rewrite (rev_app_distr _ (whens_text xs)), <- app_assoc. reflexivity.
Qed.
Lemma whens_count xs l : whens_ok l xs = true -> (length xs <= length (whens_text xs))%nat.
Proof.
  revert l. induction xs as [|x xs IHx]; intros l H; [cbn; lia|]. unfold whens_ok in H. cbn [map_all forallb] in H. apply andb_true_iff in H as [H H2]. apply andb_true_iff in H as [H _].
  unfold tests_fit in H. apply andb_true_iff in H as [_ Hk]. specialize (IHx _ H2). clear H2. destruct x as [[|[k e] ts] b]; [discriminate Hk|]. clear Hk.
  unfold whens_text in *. cbn [flat_map length fst app]. rewrite app_length. unfold tests_text at 1. cbn [flat_map length app]. lia.
Qed.

Lemma spine_case k c s xs e t : Spine m (R_case k c s xs e t).
Proof.
  intros p ia u r a ps d0 d l f Hm K. pose proof (f_fits _ _ _ _ _ _ K) as Hf. cbn [fits] in Hf.
  apply andb_true_iff in Hf as [Hf Tt]. apply andb_true_iff in Hf as [Hf Fe]. apply andb_true_iff in Hf as [Hf Nx]. apply andb_true_iff in Hf as [Hf Fx].
  apply andb_true_iff in Hf as [Hf Ss]. apply andb_true_iff in Hf as [Hf Ac]. apply andb_true_iff in Hf as [Tk Fc]. apply is_a_ty in Tk, Tt.
  fold (whens_ok (after l c) xs) in Fx.
  pose proof (f_shallow _ _ _ _ _ _ K) as Sk. cbn [shallow] in Sk.
  cbn [text] in Hm. fold (whens_text xs) in Hm. change (flat_map (fun x => flat_map (fun y => fst y :: text (snd y)) (fst x) ++ body_text text (snd x)) xs) with (whens_text xs) in Hm.
  cbn [length] in Hm. rewrite !app_length in Hm. cbn [length] in Hm. pose proof (whens_count xs _ Fx) as Ct.
  destruct (at_least_3 c Ac) as (A1 & A2 & A3).
  destruct s as [|x s]; [discriminate Ss|]. cbn [separated] in Ss. assert (Sx : separator x = true) by (cbn [forallb] in Ss; ands; assumption).
  pose proof (separator_closer x Sx) as Cx. cbn [length] in Hm.
  destruct (end_closer t Tt) as [Cct Lt].
  destruct (IH c CASE IA_CURLY_AND_BLOCK x (s ++ whens_text xs ++ else_text text e ++ t :: u :: r) (k :: a) (p :: ps) d0 d l f ltac:(clear - Hm; lia)) as (vc & Gc & Vc).
  { constructor; try assumption.
    - apply closer_okf. exact Cx.
    - apply (lthr_at ARGUMENT); [exact A1|reflexivity].
    - rewrite closer_level by exact Cx. apply N.le_0_l.
    - discriminate.
    - intros X. split; [|reflexivity]. apply Sk. rewrite X. reflexivity.
    - intros H. exfalso. eapply closer_not; [exact Cx| |exact H]. reflexivity.
    - intros [H|H]; exfalso; (eapply closer_not; [exact Cx| |exact H]; reflexivity).
    - intros H; exfalso; (eapply closer_not; [exact Cx| |exact H]; reflexivity).
    - rewrite A3. discriminate. }
  { rewrite closer_level by exact Cx. apply N.le_0_l. }
  { intros H. exfalso. eapply closer_not; [exact Cx| |exact H]. reflexivity. }
  assert (Sz : exists h w, else_text text e ++ t :: u :: r = h :: w /\ case_stop (ty h) = true).
  { destruct e as [[k2 b2]|]; cbn [else_text app].
    - cbn [else_fits] in Fe. ands. eexists; eexists. split; [reflexivity|]. match goal with H : is_a T_ElseKeyword k2 = true |- _ => apply is_a_ty in H; rewrite H end. reflexivity.
    - eexists; eexists. split; [reflexivity|]. rewrite Tt. reflexivity. }
  destruct Sz as (h & w & Ez & Sh).
  destruct (whens_loop k vc xs (F - length xs) [] h (rev (x :: s) ++ rev (text c) ++ k :: a) w (p :: ps) d0 d (after l c) f Sh Fx ltac:(intros X; apply Sk; rewrite X, orb_true_r; reflexivity) ltac:(clear - Hm; lia))
    as (vs & Svs & Lvs & R). cbn [app] in R. rewrite <- Ez in R. replace (length xs + (F - length xs))%nat with F in R by (clear - Hm Ct; lia).
  assert (Hh : is_end_of_line (ty (hd no_token (whens_text xs ++ else_text text e ++ t :: u :: r))) = false).
  { destruct xs as [|[ts b] xs]; [discriminate Nx|]. unfold whens_ok in Fx. cbn [map_all forallb fst snd] in Fx. apply andb_true_iff in Fx as [Hf2 _]. apply andb_true_iff in Hf2 as [Hf2 _].
      unfold tests_fit in Hf2. apply andb_true_iff in Hf2 as [_ Hk]. destruct ts as [|[k1 e1] ts]; [discriminate Hk|]. cbn [map fst] in Hk. apply andb_true_iff in Hk as [Tk1 _].
      apply is_a_ty in Tk1. cbn [whens_text tests_text flat_map fst app hd]. rewrite Tk1. reflexivity. }
  assert (Hhd : ty (head c) <> T_WhenKeyword /\ ty (head c) <> T_Newline /\ ty (head c) <> T_Semicolon).
  { pose proof (starts_head l c Fc) as S. repeat split; intros X; rewrite X in S; discriminate S. }
  assert (Last : exists els, stands (N_Case k vc vs els) (meaning l (R_case k c (x :: s) xs e t)) /\
     mloop (F - length xs) (case_round k vc) (vs, None) (PState (rev (whens_text xs) ++ rev (x :: s) ++ rev (text c) ++ k :: a) (else_text text e ++ t :: u :: r) (p :: ps) (d0 :: d) (after_all (when_after after) (after l c) xs) f) =
     POk (N_Case k vc vs els) (PState (t :: rev (else_text text e) ++ rev (whens_text xs) ++ rev (x :: s) ++ rev (text c) ++ k :: a) (u :: r) (p :: ps) (d0 :: d)
       (else_after after (after_all (when_after after) (after l c) xs) e) f)).
  { destruct e as [[k2 [s2 b2]]|].
    - cbn [else_fits snd] in Fe. apply andb_true_iff in Fe as [Fe Ne]. apply andb_true_iff in Fe as [Tk2 Fb]. apply is_a_ty in Tk2. unfold body_fits in Fb. cbn [fst snd] in Fb. apply andb_true_iff in Fb as [Fs2 Fb2].
      cbn [else_text length] in Hm. rewrite body_text_eq in Hm. cbn [fst snd] in Hm. rewrite app_length in Hm.
      destruct (body_ok m IH None (fun x => ttype_eqb x T_EndKeyword) ([], b2) t (rev s2 ++ k2 :: rev (whens_text xs) ++ rev (x :: s) ++ rev (text c) ++ k :: a) (u :: r) (p :: ps) (d0 :: d) (after_all (when_after after) (after l c) xs) f
         ltac:(rewrite Tt; reflexivity) Cct Lt ends_end ltac:(rewrite body_text_eq; cbn [fst snd app]; clear - Hm; lia) eq_refl Fb2) as (t0 & bs & Gb & V).
      rewrite body_text_eq in V. cbn [fst snd app] in V. cbn [snd] in Gb.
      exists (Some (t0, bs)). split.
      + cbn [meaning else_meaning]. apply stands_case; [exact (g_stands _ _ _ Gc)|exact Svs|exact (goods_stands fst _ _ _ Gb)|].
        intros ->. apply goods_nil in Gb. subst b2. discriminate Ne.
      + destruct vs as [|v0 vs0]; [exfalso; destruct xs; [discriminate Nx|discriminate Lvs]|]. cbn [else_text]. rewrite body_text_eq. cbn [fst snd].
        destruct (F - length xs)%nat as [|[|j]] eqn:Ej; [exfalso; clear - Ej Ct Hm; lia|exfalso; clear - Ej Ct Hm; lia|].
        etransitivity; [apply loop_step|apply loop_done].
        * unfold case_round. cbn [app]. run. rewrite <- app_assoc. rewrite run_skip; [|exact Fs2|eapply stm_line; eassumption].
          unfold parse_body_to. rewrite (bind_ok _ _ _ _ _ V). run. reflexivity.
        * unfold case_round. run. cbn [rev else_after]. rewrite !rev_app_distr. rewrite <- !app_assoc. reflexivity.
    - exists None. split.
      + cbn [meaning else_meaning]. apply stands_case0; [exact (g_stands _ _ _ Gc)|exact Svs].
      + cbn [else_text app rev else_after]. destruct (F - length xs)%nat as [|j] eqn:Ej; [exfalso; clear - Ej Ct Hm; lia|].
        apply loop_done. unfold case_round. run. reflexivity. }
  destruct Last as (els & Sc & L).
  exists (N_Case k vc vs els), 0%nat. split; [|split; [apply Nat.le_0_l|]].
  - apply good_ordinary; try reflexivity; [exact Sc|]. symmetry. apply integer_tag. reflexivity.
  - cbn [text after app]. change (flat_map (fun x => flat_map (fun y => fst y :: text (snd y)) (fst x) ++ body_text text (snd x)) xs) with (whens_text xs).
    rewrite <- !app_assoc. cbn [app]. rewrite <- !app_assoc. cbn [app].
    refine (reach_null m p ia a (k :: text c ++ x :: s ++ whens_text xs ++ else_text text e ++ t :: u :: r) (p :: ps) (d0 :: d) l f (parse_case E F) _ _ _ _).
    + cbn [hd]. rewrite Tk. reflexivity.
    + unfold parse_case. run1. run1.
      match goal with |- bind cty ?h (PState ?x1 ?x2 ?x3 ?x4 ?x5 ?x6) = _ => change (bind cty h (PState x1 x2 x3 x4 x5 x6)) with (h (ty (hd no_token x2)) (PState x1 x2 x3 x4 x5 x6)) end. cbv beta.
      rewrite hd_text.
      assert (Br : forall T (A B C : T), match ty (head c) with T_WhenKeyword => A | T_Newline | T_Semicolon => B | _ => C end = C).
      { intros T A B C. destruct Hhd as (N1 & N2 & N3). destruct (ty (head c)); try reflexivity; contradiction. }
      rewrite Br. clear Br. rewrite bind_assoc. rewrite (bind_ok _ _ _ _ _ Vc). rewrite bind_assoc. rewrite run_next; [|exact Ss|exact Hh].
      change (bind (ret vc) ?h ?z) with (h vc z). cbv beta. etransitivity; [exact R|]. etransitivity; [exact L|].
      cbn [rev]. rewrite !rev_app_distr. cbn [rev app]. rewrite !rev_app_distr. cbn [rev app]. rewrite <- !app_assoc. reflexivity.
Qed.

(** ** Methods *)
Lemma separated_hd b w : separated (fst b) = true -> separator (hd no_token (body_text text b ++ w)) = true.
Proof. destruct b as [[|x s] xs]; cbn [fst separated]; [discriminate|]. cbn [forallb]. intros H. apply andb_true_iff in H as [H _]. exact H. Qed.
Lemma separated_all s : separated s = true -> forallb separator s = true.
Proof. destruct s; [discriminate|auto]. Qed.
Lemma def_rest_ok p b n t a r ps d0 d f : params_fit after (as_default fits) T_LParen T_RParen [] p = true ->
  (params_shallow shallow p = true -> d0 = 0) -> ty t = T_EndKeyword ->
  body_fits after fits (match p with F_none => separated | _ => forallb separator end) false returns (params_after after [] p) b = true ->
  (length (params_text text p) + length (body_text text b) < m)%nat ->
  exists vs t0 ws, Forall2 pstands vs (pmeaning [] p) /\ goods fst (params_after after [] p) (snd b) ws /\
    parse_def_rest E F n (PState a (params_text text p ++ body_text text b ++ t :: r) ps (d0 :: d) [] f) =
    POk (vs, (t0, ws)) (PState (t :: rev (body_text text b) ++ rev (params_text text p) ++ a) r ps (d0 :: d) (body_after after (params_after after [] p) b) f).
Proof.
  intros Hp Hs Tt Hb Hm. unfold body_fits in Hb. apply andb_true_iff in Hb as [Hb1 Hb2].
  assert (Hb3 : forallb separator (fst b) = true) by (destruct p; [apply separated_all; exact Hb1|exact Hb1|exact Hb1]).
  destruct (end_closer t Tt) as [Ct Lt].
  destruct (body_ok m IH (Some (rescue_in_body E F)) (fun x => ttype_eqb x T_EndKeyword) b t (rev (params_text text p) ++ a) r ps (d0 :: d) (params_after after [] p) f
    ltac:(rewrite Tt; reflexivity) Ct Lt ends_end ltac:(clear - Hm; lia) Hb3 Hb2) as (t0 & ws & Gw & W).
  assert (Tail : forall vs : list node, (b0 <- cur_is T_Equal ;;
     body <-
      (if b0 then
         advance ;;;
         if ends_with n (s2l "=") && negb (ends_with n (s2l "==")) then
           throw (SE_text "setter method cannot be defined in an endless method definition")
         else
           e <- pexpr E LOWEST ;;
           ret (ntoken e, [e])
       else
         body <- parse_body_rescue_to E F T_EndKeyword ;;
         expect T_EndKeyword "def end" ;;;
         advance ;;;
         ret body) ;;
      ret (vs, body)) (PState (rev (params_text text p) ++ a) (body_text text b ++ t :: r) ps (d0 :: d) (params_after after [] p) f) =
    POk (vs, (t0, ws)) (PState (t :: rev (body_text text b) ++ rev (params_text text p) ++ a) r ps (d0 :: d) (body_after after (params_after after [] p) b) f)).
  { intros vs. at_cur. pose proof (body_hd _ b t r Hb3 Hb2) as Bh. cbv zeta in Bh.
    rewrite (eqb_diff (ty (hd no_token (body_text text b ++ t :: r))) T_Equal)
      by (intros X; rewrite X in Bh; destruct Bh as [B|[B|[B|B]]]; [discriminate B|discriminate B|discriminate B|rewrite Tt in B; discriminate B]).
    unfold parse_body_rescue_to, parse_body_rescue. rewrite !bind_assoc. rewrite (bind_ok _ _ _ _ _ W). run. reflexivity. }
  unfold parse_def_rest. destruct p as [|o c|o xs].
  - exists [], t0, ws. split; [constructor|]. split; [exact Gw|]. cbn [params_text app rev params_after pmeaning] in *. at_cur.
    assert (Sh := separated_hd b (t :: r) Hb1). unfold separator, is_a in Sh.
    assert (N : ttype_eqb (ty (hd no_token (body_text text b ++ t :: r))) T_LParen = false /\ can_be_first_arg_of_def (ty (hd no_token (body_text text b ++ t :: r))) = false)
      by (apply orb_true_iff in Sh as [X|X]; apply eqb_eq in X; rewrite X; split; reflexivity).
    destruct N as [N1 N2]. rewrite N1, N2. change (bind (ret []) ?h ?z) with (h (@nil node) z). cbv beta. exact (Tail []).
  - cbn [params_fit] in Hp. apply andb_true_iff in Hp as [T1 T2]. apply is_a_ty in T1, T2.
    exists [], t0, ws. split; [constructor|]. split; [exact Gw|]. cbn [params_text app rev params_after pmeaning] in *. run. exact (Tail []).
  - cbn [params_fit] in Hp. apply andb_true_iff in Hp as [Hp Hx]. apply andb_true_iff in Hp as [Hp Ho]. apply andb_true_iff in Hp as [T1 Hc]. apply is_a_ty in T1.
    fold (ps_fit [] xs) in Hx. cbn [params_text length] in Hm. fold (ptext xs) in Hm.
    destruct (param_list m IH Ctx_Method T_RParen
      (fun acc => b <- cur_is T_Comma ;;
         if b then advance ;;; acc <- parse_def_single_arg E F Ctx_Method IA_CURLY_AND_BLOCK acc ;; ret (inl acc)
         else ret (inr acc)) (or_intror eq_refl)) with (xs := xs) (r := body_text text b ++ t :: r) (a := o :: a) (ps := ps) (d0 := d0) (d := d) (l := @nil str) (f := f) as (vs & u & w & Sv & Tu & Ew & V); try assumption.
    { intros acc a1 t1 w1 ps1 d1 l1 f1 T N. run. reflexivity. }
    { intros acc a1 t1 w1 ps1 d1 l1 f1 N. run1. rewrite (eqb_diff _ _ N). reflexivity. }
    { clear - Hm. lia. }
    exists vs, t0, ws. split; [exact Sv|]. split; [exact Gw|]. cbn [params_text app]. fold (ptext xs).
    assert (Hh : ty (hd no_token (ptext xs ++ body_text text b ++ t :: r)) <> T_RParen).
    { destruct xs as [|[x s] xs]; [discriminate Hc|]. apply ps_fit_cons in Hx as [Hx _]. rewrite ptext_cons, <- app_assoc.
      destruct (param_hd [] x ((s :: ptext xs) ++ body_text text b ++ t :: r) Hx) as (? & ? & ?). assumption. }
    run1. rewrite T1. change (ttype_eqb T_LParen T_LParen) with true. cbv iota. rewrite bind_assoc. run1. rewrite bind_assoc. at_cur. rewrite (eqb_diff _ _ Hh). rewrite bind_assoc.
    assert (V' : parse_def_args E F [] (PState (o :: a) (ptext xs ++ body_text text b ++ t :: r) ps (d0 :: d) [] f) =
      POk vs (PState (rev w ++ o :: a) (u :: body_text text b ++ t :: r) ps (d0 :: d) (ps_after [] xs) f)).
    { unfold parse_def_args. etransitivity; [|exact (V _ (fun vs => ret vs))].
      unfold parse_def_single_arg, bind. destruct (def_single_arg E F F Ctx_Method IA_CURLY_AND_BLOCK []) as [y z| | |]; [|reflexivity|reflexivity|reflexivity].
      match goal with |- ?x = _ => destruct x; reflexivity end. }
    rewrite (bind_ok _ _ _ _ _ V'). rewrite bind_assoc. run. etransitivity; [|exact (Tail vs)].
    cbn [params_text rev params_after]. fold (ptext xs). rewrite Ew, rev_app_distr. cbn [rev app]. rewrite <- !app_assoc. reflexivity.
Qed.

Lemma spine_def k s n p b t : Spine m (R_def k s n p b t).
Proof.
  intros q ia u r a ps d0 d l f Hm K. pose proof (f_fits _ _ _ _ _ _ K) as Hf. cbn [fits] in Hf.
  apply andb_true_iff in Hf as [Hf Tt]. apply andb_true_iff in Hf as [Hf Fb]. apply andb_true_iff in Hf as [Hf Fp]. apply andb_true_iff in Hf as [Hf Nn].
  apply andb_true_iff in Hf as [Hf Tn]. apply andb_true_iff in Hf as [Tk Fs]. apply is_a_ty in Tk, Tt. destruct (named_ok n Nn) as [Ln Cn].
  pose proof (f_shallow _ _ _ _ _ _ K) as Sk. cbn [shallow] in Sk.
  cbn [text] in Hm. cbn [length] in Hm. rewrite app_length in Hm. cbn [length] in Hm. rewrite !app_length in Hm. cbn [length] in Hm.
  set (selfs := match s with Some (s, d) => [s; d] | None => [] end) in *.
  destruct (def_rest_ok p b (name n) t (n :: rev selfs ++ k :: a) (u :: r) (q :: ps) d0 d f Fp ltac:(intros X; apply Sk; exact X) Tt Fb ltac:(clear - Hm; lia))
    as (vs & t0 & ws & Sv & Gw & V).
  assert (Tn' : ty n = T_BareName \/ ty n = T_Constant) by (apply orb_true_iff in Tn as [X|X]; apply is_a_ty in X; auto).
  assert (Nm : forall a' w' l', parse_method_name (PState a' (n :: w') (q :: ps) (d0 :: d) l' f) = POk (name n) (PState (n :: a') w' (q :: ps) (d0 :: d) l' f)).
  { intros a' w' l'. unfold parse_method_name. destruct Tn' as [T|T]; run1; rewrite T; unfold literal_string; rewrite Ln; run; reflexivity. }
  assert (Hh : is_dot (ty (hd no_token (params_text text p ++ body_text text b ++ t :: u :: r))) || is_constant_resolution (ty (hd no_token (params_text text p ++ body_text text b ++ t :: u :: r))) = false).
  { destruct p as [|o c|o xs]; cbn [params_text app hd params_fit] in *.
    - unfold body_fits in Fb. apply andb_true_iff in Fb as [Fb _]. assert (Sh := separated_hd b (t :: u :: r) Fb). unfold separator, is_a in Sh.
      apply orb_true_iff in Sh as [X|X]; apply eqb_eq in X; rewrite X; reflexivity.
    - ands. match goal with H : is_a T_LParen o = true |- _ => apply is_a_ty in H; rewrite H end. reflexivity.
    - ands. match goal with H : is_a T_LParen o = true |- _ => apply is_a_ty in H; rewrite H end. reflexivity. }
  assert (Name : exists se, (se = None \/ exists z, se = Some (N_Self z)) /\ match se with Some _ => true | None => false end = match s with Some _ => true | None => false end /\
     parse_def_name E (PState (k :: a) (selfs ++ n :: params_text text p ++ body_text text b ++ t :: u :: r) (q :: ps) (d0 :: d) l f) =
     POk (se, name n) (PState (n :: rev selfs ++ k :: a) (params_text text p ++ body_text text b ++ t :: u :: r) (q :: ps) (d0 :: d) l f)).
  { unfold parse_def_name. destruct s as [[s1 s2]|]; subst selfs.
    - apply andb_true_iff in Fs as [T1 T2]. apply is_a_ty in T1, T2.
      exists (Some (N_Self s1)). split; [right; eexists; reflexivity|]. split; [reflexivity|]. cbn [app rev]. run1. rewrite run_peek. cbv zeta. cbn [hd]. rewrite T1, T2. change (is_dot T_Dot || is_constant_resolution T_Dot) with true. cbv iota. run. rewrite (bind_ok _ _ _ _ _ (Nm _ _ _)). reflexivity.
    - exists None. split; [left; reflexivity|]. split; [reflexivity|]. cbn [app rev]. run1. rewrite run_peek. cbv zeta. cbn [hd] in Hh. 
      destruct Tn' as [T|T]; rewrite T, Hh; change (bind (ret None) ?h ?z) with (h (@None node) z); cbv beta; rewrite (bind_ok _ _ _ _ _ (Nm _ _ _)); reflexivity. }
  destruct Name as (se & Hse & Ese & Vn).
  exists (N_Def k se (name n) vs (t0, ws)), 0%nat. split; [|split; [apply Nat.le_0_l|]].
  - apply good_ordinary; try reflexivity.
    + cbn [meaning]. pose proof (stands_def k se (name n) vs t0 ws _ _ Hse Sv (goods_stands fst _ _ _ Gw)) as St.
      replace (match s with Some _ => "defs" | None => "defn" end)%string with (match se with Some _ => "defs" | None => "defn" end)%string by (destruct s, se; (reflexivity || discriminate Ese)).
      replace (match s with Some _ => [sx "self" []] | None => [] end) with (match se with Some _ => [sx "self" []] | None => [] end) by (destruct s, se; (reflexivity || discriminate Ese)).
      replace (params_meaning after meaning [] p) with (sx "args" (pmeaning [] p)) by (destruct p; reflexivity). exact St.
    + symmetry. cbn [meaning]. rewrite integer_documented. apply integer_tag. destruct s; reflexivity.
  - cbn [text after app]. fold selfs. rewrite <- !app_assoc. cbn [app]. rewrite <- !app_assoc. cbn [app].
    refine (reach_null m q ia a (k :: selfs ++ n :: params_text text p ++ body_text text b ++ t :: u :: r) (q :: ps) (d0 :: d) l f (parse_def E F) _ _ _ _).
    + cbn [hd]. rewrite Tk. reflexivity.
    + unfold parse_def. run1. run1. rewrite (bind_ok _ _ _ _ _ Vn). cbn [fst snd]. unfold with_locals. repeat (rewrite bind_assoc || run1). rewrite (bind_ok _ _ _ _ _ V). run.
      cbn [rev]. rewrite !rev_app_distr. cbn [rev app]. rewrite !rev_app_distr. cbn [rev app]. rewrite <- !app_assoc. reflexivity.
Qed.
End Def.

(** * RubyBody: statements and bodies

    The loops of the parser that go through statements, on the statements of SpecRuby.
    No code is modelled here. *)
From Coq Require Import Strings.String NArith ZArith Bool List Lia.
From Verif Require Import Base Token Node ParserBase ParserModel Sexp SpecRuby RubyTransform RubyNodes RubyBase RubyRun.
Import ListNotations.
Open Scope N_scope.
Open Scope list_scope.

(** ** Sequences of expressions *)
Section Goods.
Context {X : Type} (pr : X -> rb).
Fixpoint goods (l : list str) (xs : list X) (vs : list node) : Prop :=
  match xs, vs with
  | [], [] => True
  | x :: xs, v :: vs => good l (pr x) v /\ goods (after l (pr x)) xs vs
  | _, _ => False
  end.
Lemma goods_stands xs : forall l vs, goods l xs vs ->
  Forall2 stands vs (map_all (fun l x => after l (pr x)) (fun l x => meaning l (pr x)) l xs).
Proof.
  induction xs as [|x xs IH]; intros l [|v vs]; cbn [goods map_all]; try contradiction; [constructor|].
  intros [G H]. constructor; [exact (g_stands _ _ _ G)|apply IH; exact H].
Qed.
Lemma goods_plain xs : forall l vs, goods l xs vs -> forallb plain vs = true.
Proof.
  induction xs as [|x xs IH]; intros l [|v vs]; cbn [goods forallb]; try contradiction; [reflexivity|].
  intros [G H]. rewrite (g_plain _ _ _ G). cbn [andb]. eapply IH. exact H.
Qed.
Lemma goods_nil xs l : goods l xs [] -> xs = [].
Proof. destruct xs; [reflexivity|contradiction]. Qed.
End Goods.

(** ** A token that ends a statement *)
Definition closer (u : token) : bool :=
  match ty u with
  | T_RParen | T_RBracket | T_RCurlyBrace | T_Newline | T_Semicolon | T_Eof | T_ThenKeyword | T_EndKeyword
  | T_ElseKeyword | T_ElsifKeyword | T_WhenKeyword | T_EvaluateToStringEnd => true
  | _ => false
  end.
Lemma closer_okf u : closer u = true -> okf u = true.
Proof. unfold closer, okf. destruct (ty u); (reflexivity || discriminate). Qed.
Lemma closer_level u n : closer u = true -> level (ty u) n = 0.
Proof. unfold closer. destruct (ty u); (reflexivity || discriminate). Qed.
Lemma closer_not u x : closer u = true -> closer (Tok x None None 0 [] 0 0 false) = false -> ty u <> x.
Proof. unfold closer. cbn [ty]. intros H K E. rewrite E in H. congruence. Qed.
Lemma separator_closer u : separator u = true -> closer u = true.
Proof. unfold separator, is_a, closer. intros H. apply orb_true_iff in H as [H|H]; apply eqb_eq in H; rewrite H; reflexivity. Qed.

Lemma lthr_pos n : 0 < lthr n.
Proof. pose proof (lthr_mono 0 n ltac:(lia)). change (lthr 0) with 5 in H. lia. Qed.

(** ** Statements *)
Definition stm_text (xs : list (rb * list token)) : list token := flat_map (fun x => text (fst x) ++ snd x) xs.
Definition stm_after (l : list str) (xs : list (rb * list token)) : list str :=
  after_all (fun l x => after l (fst x)) l xs.

Lemma statements_cons strict ret l e s xs :
  statements_fit after fits strict ret l ((e, s) :: xs) = true ->
  fits l e = true /\ forallb separator s = true /\
  (s = [] -> ret e = false /\ strict = false /\ xs = []) /\
  statements_fit after fits strict ret (after l e) xs = true.
Proof.
  unfold statements_fit. cbn [map_all forallb fst snd]. intros H.
  apply andb_true_iff in H as [H C]. apply andb_true_iff in H as [A B]. apply andb_true_iff in A as [A A'].
  apply andb_true_iff in A as [A1 A2]. apply andb_true_iff in C as [C C'].
  split; [exact A1|]. split; [exact A2|]. split.
  - intros ->. apply negb_true_iff in C. split; [exact C|]. destruct strict; [discriminate B|].
    split; [reflexivity|]. destruct xs; [reflexivity|discriminate B].
  - rewrite A', C'. cbn [andb]. rewrite andb_true_r.
    destruct strict; [cbn [forallb] in B; apply andb_true_iff in B as [_ B]; exact B|].
    destruct xs; [reflexivity|]. change (removelast ((e, s) :: p :: xs)) with ((e, s) :: removelast (p :: xs)) in B.
    cbn [forallb] in B. apply andb_true_iff in B as [_ B]. exact B.
Qed.

Lemma stm_hd strict ret l xs c r : statements_fit after fits strict ret l xs = true ->
  starts (ty (hd no_token (stm_text xs ++ c :: r))) = true \/ (xs = [] /\ hd no_token (stm_text xs ++ c :: r) = c).
Proof.
  destruct xs as [|[e s] xs]; intros H; [right; split; reflexivity|]. left.
  apply statements_cons in H as (H & _). cbn [stm_text flat_map fst snd]. rewrite <- !app_assoc, hd_text.
  eapply starts_head. exact H.
Qed.
Lemma stm_line strict ret l xs c r : statements_fit after fits strict ret l xs = true -> is_end_of_line (ty c) = false ->
  is_end_of_line (ty (hd no_token (stm_text xs ++ c :: r))) = false.
Proof. intros H C. destruct (stm_hd _ _ _ _ c r H) as [S|[_ ->]]; [apply starts_line; exact S|exact C]. Qed.

Section Bodies.
Variable m : nat.
Hypothesis IH : Main m.
Notation E := (parse_expression m).
Notation F := (m + m + 2)%nat.

Lemma statement_ok e u r a ps d0 d l f : (length (text e) < m)%nat -> fits l e = true -> closer u = true ->
  (returns e = true -> is_end_of_expression (ty u) = true) -> (shallow e = true -> d0 = 0) ->
  exists v, good l e v /\
    pexpr E LOWEST (PState a (text e ++ u :: r) ps (d0 :: d) l f) =
    POk v (PState (rev (text e) ++ a) (u :: r) ps (d0 :: d) (after l e) f).
Proof.
  intros Hm Hf C R S. apply IH; [exact Hm| | |].
  - constructor; try assumption.
    + apply closer_okf. exact C.
    + apply lthr_pos.
    + rewrite closer_level by exact C. lia.
    + discriminate.
    + intros H. split; [apply S; exact H|reflexivity].
    + intros H. exfalso. eapply closer_not; [exact C| |exact H]. reflexivity.
    + intros [H|H]; exfalso; (eapply closer_not; [exact C| |exact H]; reflexivity).
    + intros H; exfalso; (eapply closer_not; [exact C| |exact H]; reflexivity).
  - rewrite closer_level by exact C. unfold LOWEST. lia.
  - intros H. exfalso. eapply closer_not; [exact C| |exact H]. reflexivity.
Qed.


(** *** [parse_body] *)
Definition ends (is_end : ttype -> bool) : Prop :=
  is_end T_Newline = false /\ is_end T_Semicolon = false /\ forall t, starts t = true -> is_end t = false.
Lemma ends_separator is_end x : ends is_end -> separator x = true -> is_end (ty x) = false.
Proof. intros (A & B & _). unfold separator, is_a. intros H. apply orb_true_iff in H as [H|H]; apply eqb_eq in H; rewrite H; assumption. Qed.

Lemma body_loop (rescue : option (token -> list node -> M node)) strict is_end t0 c : is_end (ty c) = true -> (strict = false -> closer c = true) -> is_end_of_line (ty c) = false -> ends is_end ->
  forall xs k acc a r ps d l f, (length (stm_text xs) < m)%nat -> statements_fit after fits strict returns l xs = true ->
  (length xs < k)%nat ->
  exists vs, goods fst l xs vs /\
    mloop k (fun acc =>
       c <- cty ;;
       if is_eof c || is_end c then pop_depth ;;; ret (inr (t0, acc))
       else
         let otherwise :=
           e <- pexpr E LOWEST ;;
           c <- cty ;;
           if is_end c then pop_depth ;;; ret (inr (t0, acc ++ [e]))
           else next_expression ;;; ret (inl (acc ++ [e])) in
         match rescue with
         | Some g =>
             if ttype_eqb c T_RescueKeyword || ttype_eqb c T_EnsureKeyword then
               b <- g t0 acc ;; rewind ;;; ret (inr (t0, [b]))
             else otherwise
         | None => otherwise
         end) acc (PState a (stm_text xs ++ c :: r) ps (0 :: d) l f) =
    POk (t0, acc ++ vs) (PState (rev (stm_text xs) ++ a) (c :: r) ps d (stm_after l xs) f).
Proof.
  intros Ec Cc Lc Ee. induction xs as [|[e s] xs IHx]; intros k acc a r ps d l f Hm Hf Hk.
  - exists []. split; [exact I|]. destruct k as [|k]; [exfalso; clear - Hk; cbn in Hk; lia|]. apply loop_done. cbn [stm_text flat_map app rev].
    run1. rewrite Ec, orb_true_r. run1. rewrite app_nil_r. reflexivity.
  - destruct k as [|k]; [exfalso; clear - Hk; cbn in Hk; lia|]. cbn [length] in Hk.
    apply statements_cons in Hf as (Hfe & Hs & Hl & Hx).
    cbn [stm_text flat_map fst snd] in Hm |- *. rewrite !app_length in Hm.
    change (flat_map (fun x => text (fst x) ++ snd x) xs) with (stm_text xs) in *.
    assert (Lm : (length (text e) < m)%nat) by (clear - Hm; lia).
    assert (Lx : (length (stm_text xs) < m)%nat) by (clear - Hm; lia).
    assert (Lk : (length xs < k)%nat) by (clear - Hk; lia). clear Hm.
    pose proof (starts_head l e Hfe) as St.
    assert (W : is_eof (ty (head e)) || is_end (ty (head e)) = false).
    { destruct Ee as (_ & _ & Ee). rewrite (Ee _ St), orb_false_r. apply starts_not; [reflexivity|exact St]. }
    assert (Z : ttype_eqb (ty (head e)) T_RescueKeyword || ttype_eqb (ty (head e)) T_EnsureKeyword = false).
    { rewrite !(starts_not _ _) by (reflexivity || exact St). reflexivity. }
    assert (Q : forall g : M (list node + token * list node),
      match rescue with
      | Some h => if ttype_eqb (ty (head e)) T_RescueKeyword || ttype_eqb (ty (head e)) T_EnsureKeyword
                  then b <- h t0 acc ;; rewind ;;; ret (inr (t0, [b])) else g
      | None => g end = g).
    { intros g. destruct rescue; [rewrite Z|]; reflexivity. }
    rewrite <- app_assoc.
    destruct s as [|x s].
    + destruct (Hl eq_refl) as (Hr & Hst & ->). clear Hl. specialize (Cc Hst).
      destruct (statement_ok e c r a ps 0 d l f Lm Hfe Cc (fun X => ltac:(exfalso; rewrite X in Hr; discriminate Hr)) ltac:(reflexivity)) as (v & G & V).
      exists [v]. split; [split; [exact G|exact I]|]. apply loop_done. cbn [app]. rewrite !app_nil_r.
      run1. cbv zeta. rewrite W, Q. rewrite (bind_ok _ _ _ _ _ V).
      run1. rewrite Ec. run1. reflexivity.
    + assert (Cx : separator x = true) by (cbn [forallb] in Hs; bools; assumption).
      destruct (statement_ok e x ((s ++ stm_text xs) ++ c :: r) a ps 0 d l f Lm Hfe (separator_closer x Cx)
        (fun _ => proj2 (separator_end x Cx)) ltac:(reflexivity)) as (v & G & V).
      destruct (IHx k (acc ++ [v]) (rev (x :: s) ++ rev (text e) ++ a) r ps d (after l e) f Lx Hx Lk) as (vs & Gs & R).
      exists (v :: vs). split; [split; assumption|].
      rewrite (loop_step k _ acc _ (acc ++ [v])
        (PState (rev (x :: s) ++ rev (text e) ++ a) (stm_text xs ++ c :: r) ps (0 :: d) (after l e) f)).
      * etransitivity; [exact R|]. f_equal; [rewrite <- app_assoc; reflexivity|].
        f_equal. rewrite !rev_app_distr, <- !app_assoc. reflexivity.
      * rewrite <- ?app_assoc. cbn [app]. rewrite <- ?app_assoc.
        rewrite <- app_assoc in V.
        run1. cbv zeta. rewrite W, Q. rewrite (bind_ok _ _ _ _ _ V).
        run1. rewrite (ends_separator _ _ Ee Cx).
        rewrite run_next; [reflexivity|exact Hs|eapply stm_line; eassumption].
Qed.

Lemma stm_count xs : (length xs <= length (stm_text xs))%nat.
Proof.
  induction xs as [|[e s] xs IHx]; [cbn; lia|]. cbn [stm_text flat_map fst snd length]. rewrite !app_length.
  pose proof (text_pos e). unfold stm_text in IHx. lia.
Qed.
Lemma closer_sound c : closer c = true -> sound (ty c) = true.
Proof. intros Cc. apply closer_okf, andb_true_iff in Cc as [Cc _]. unfold sound. rewrite Cc, orb_true_r. reflexivity. Qed.
Lemma sound_body s strict ret l xs c r : forallb separator s = true -> statements_fit after fits strict ret l xs = true ->
  sound (ty c) = true -> sound (ty (hd no_token (s ++ stm_text xs ++ c :: r))) = true.
Proof.
  intros Hs Hf Cc. destruct s as [|x s].
  - cbn [app]. destruct (stm_hd _ _ _ _ c r Hf) as [S|[_ ->]]; [unfold sound; rewrite S; reflexivity|exact Cc].
  - cbn [forallb app hd] in *. bools. apply separator_closer in H. apply closer_sound. exact H.
Qed.

Lemma body_general rescue strict is_end b c a r ps d l f : is_end (ty c) = true -> sound (ty c) = true -> (strict = false -> closer c = true) -> is_end_of_line (ty c) = false ->
  ends is_end -> (length (body_text text b) < m)%nat -> forallb separator (fst b) = true ->
  statements_fit after fits strict returns l (snd b) = true ->
  exists t0 vs, goods fst l (snd b) vs /\
    body_with E F rescue LOWEST is_end (PState a (body_text text b ++ c :: r) ps d l f) =
    POk (t0, vs) (PState (rev (body_text text b) ++ a) (c :: r) ps d (body_after after l b) f).
Proof.
  intros Ec Sc Cc Lc Ee Hm Hs Hf. destruct b as [s xs]. cbn [fst snd] in *. unfold body_text in *. cbn [fst snd] in *.
  change (flat_map (fun x => text (fst x) ++ snd x) xs) with (stm_text xs) in *. rewrite app_length in Hm.
  pose proof (stm_count xs).
  destruct (body_loop rescue strict is_end (hd no_token (s ++ stm_text xs ++ c :: r)) c Ec Cc Lc Ee xs F [] (rev s ++ a) r ps d l f
    ltac:(lia) Hf ltac:(lia)) as (vs & G & R).
  exists (hd no_token (s ++ stm_text xs ++ c :: r)), vs. split; [exact G|].
  unfold body_with. run1. rewrite <- app_assoc.
  change (bind cur ?h (PState a (s ++ stm_text xs ++ c :: r) ps (0 :: d) l f))
    with (h (hd no_token (s ++ stm_text xs ++ c :: r)) (PState a (s ++ stm_text xs ++ c :: r) ps (0 :: d) l f)). cbv beta.
  rewrite run_validate by (eapply sound_body; eassumption).
  rewrite run_skip; [|exact Hs|eapply stm_line; eassumption].
  rewrite rev_app_distr, <- app_assoc. cbn [app] in R. exact R.
Qed.

Lemma body_ok rescue is_end b c a r ps d l f : is_end (ty c) = true -> closer c = true -> is_end_of_line (ty c) = false ->
  ends is_end -> (length (body_text text b) < m)%nat -> forallb separator (fst b) = true ->
  statements_fit after fits false returns l (snd b) = true ->
  exists t0 vs, goods fst l (snd b) vs /\
    body_with E F rescue LOWEST is_end (PState a (body_text text b ++ c :: r) ps d l f) =
    POk (t0, vs) (PState (rev (body_text text b) ++ a) (c :: r) ps d (body_after after l b) f).
Proof. intros Ec Cc Lc Ee Hm Hs Hf. exact (body_general rescue false is_end b c a r ps d l f Ec (closer_sound c Cc) (fun _ => Cc) Lc Ee Hm Hs Hf). Qed.

(** *** The bodies of [if] and [unless] *)
Lemma divider_closer c : is_divider (ty c) = true -> closer c = true /\ is_end_of_line (ty c) = false.
Proof. unfold closer. destruct (ty c); try discriminate; split; reflexivity. Qed.
Lemma starts_divider t : starts t = true -> is_eof t || is_divider t = false.
Proof. destruct t; (reflexivity || discriminate). Qed.
Lemma separator_divider x : separator x = true -> is_divider (ty x) = false.
Proof. unfold separator, is_a. intros H. apply orb_true_iff in H as [H|H]; apply eqb_eq in H; rewrite H; reflexivity. Qed.

Lemma if_loop c : is_divider (ty c) = true ->
  forall xs k acc a r ps d0 d l f, (length (stm_text xs) < m)%nat -> statements_fit after fits false returns l xs = true ->
  (existsb (fun x => shallow (fst x)) xs = true -> d0 = 0) -> (length xs < k)%nat ->
  exists vs, goods fst l xs vs /\
    mloop k (fun acc =>
         c <- cty ;;
         if is_eof c || is_divider c then ret (inr acc)
         else
           e <- pexpr E LOWEST ;;
           validate_current_token ;;;
           c <- cty ;;
           (if is_divider c then ret tt else next_expression) ;;;
           ret (inl (acc ++ [e]))) acc (PState a (stm_text xs ++ c :: r) ps (d0 :: d) l f) =
    POk (acc ++ vs) (PState (rev (stm_text xs) ++ a) (c :: r) ps (d0 :: d) (stm_after l xs) f).
Proof.
  intros Ec. destruct (divider_closer c Ec) as [Cc Lc].
  induction xs as [|[e s] xs IHx]; intros k acc a r ps d0 d l f Hm Hf Hd Hk.
  - exists []. split; [exact I|]. destruct k as [|k]; [exfalso; clear - Hk; cbn in Hk; lia|]. apply loop_done. cbn [stm_text flat_map app rev].
    run1. rewrite Ec, orb_true_r. rewrite app_nil_r. reflexivity.
  - destruct k as [|k]; [exfalso; clear - Hk; cbn in Hk; lia|]. cbn [length] in Hk.
    apply statements_cons in Hf as (Hfe & Hs & Hl & Hx). cbn [existsb fst] in Hd.
    cbn [stm_text flat_map fst snd] in Hm |- *. rewrite !app_length in Hm.
    change (flat_map (fun x => text (fst x) ++ snd x) xs) with (stm_text xs) in *.
    assert (Lm : (length (text e) < m)%nat) by (clear - Hm; lia).
    assert (Lx : (length (stm_text xs) < m)%nat) by (clear - Hm; lia).
    assert (Lk : (length xs < k)%nat) by (clear - Hk; lia). clear Hm.
    pose proof (starts_head l e Hfe) as St.
    assert (W := starts_divider _ St).
    rewrite <- app_assoc.
    assert (Hde : shallow e = true -> d0 = 0) by (intros X; apply Hd; rewrite X; reflexivity).
    assert (Hdx : existsb (fun x => shallow (fst x)) xs = true -> d0 = 0) by (intros X; apply Hd; rewrite X, orb_true_r; reflexivity).
    destruct s as [|x s].
    + destruct (Hl eq_refl) as (Hr & _ & ->). clear Hl.
      destruct (statement_ok e c r a ps d0 d l f Lm Hfe Cc (fun X => ltac:(exfalso; rewrite X in Hr; discriminate Hr)) Hde) as (v & G & V).
      exists [v]. split; [split; [exact G|exact I]|].
      rewrite (loop_step k _ acc _ (acc ++ [v]) (PState (rev (text e) ++ a) (c :: r) ps (d0 :: d) (after l e) f)).
      * destruct k as [|k]; [exfalso; clear - Hk; cbn in Hk; lia|]. apply loop_done. run1. rewrite Ec, orb_true_r. cbn [app rev stm_text flat_map]. rewrite !app_nil_r. reflexivity.
      * rewrite <- ?app_assoc. cbn [app stm_text flat_map]. rewrite ?app_nil_r. run1. rewrite W. rewrite (bind_ok _ _ _ _ _ V).
        rewrite run_validate by (unfold sound; apply closer_okf, andb_true_iff in Cc as [X _]; cbn [hd]; rewrite X, orb_true_r; reflexivity).
        run1. rewrite Ec. reflexivity.
    + assert (Cx : separator x = true) by (cbn [forallb] in Hs; bools; assumption).
      destruct (statement_ok e x ((s ++ stm_text xs) ++ c :: r) a ps d0 d l f Lm Hfe (separator_closer x Cx)
        (fun _ => proj2 (separator_end x Cx)) Hde) as (v & G & V).
      destruct (IHx k (acc ++ [v]) (rev (x :: s) ++ rev (text e) ++ a) r ps d0 d (after l e) f Lx Hx Hdx Lk) as (vs & Gs & R).
      exists (v :: vs). split; [split; assumption|].
      rewrite (loop_step k _ acc _ (acc ++ [v])
        (PState (rev (x :: s) ++ rev (text e) ++ a) (stm_text xs ++ c :: r) ps (d0 :: d) (after l e) f)).
      * etransitivity; [exact R|]. f_equal; [rewrite <- app_assoc; reflexivity|].
        f_equal. rewrite !rev_app_distr, <- !app_assoc. reflexivity.
      * rewrite <- ?app_assoc. cbn [app]. rewrite <- ?app_assoc.
        rewrite <- app_assoc in V.
        run1. rewrite W. rewrite (bind_ok _ _ _ _ _ V).
        rewrite run_validate by (unfold sound; apply separator_closer, closer_okf, andb_true_iff in Cx as [X _]; cbn [hd]; rewrite X, orb_true_r; reflexivity).
        run1. rewrite (separator_divider _ Cx).
        rewrite run_next; [reflexivity|exact Hs|eapply stm_line; eassumption].
Qed.

Lemma if_body_ok s xs c a r ps d0 d l f : is_divider (ty c) = true -> (length (stm_text xs) < m)%nat ->
  forallb separator s = true -> statements_fit after fits false returns l xs = true ->
  (existsb (fun x => shallow (fst x)) xs = true -> d0 = 0) ->
  exists t0 vs, goods fst l xs vs /\
    parse_if_body E F (PState a (s ++ stm_text xs ++ c :: r) ps (d0 :: d) l f) =
    POk (match vs with [] => N_Nil t0 | _ => block_or_only (t0, vs) end)
      (PState (rev (stm_text xs) ++ rev s ++ a) (c :: r) ps (d0 :: d) (stm_after l xs) f).
Proof.
  intros Ec Hm Hs Hf Hd. destruct (divider_closer c Ec) as [Cc Lc]. pose proof (stm_count xs).
  destruct (if_loop c Ec xs F [] (rev s ++ a) r ps d0 d l f Hm Hf Hd ltac:(lia)) as (vs & G & R).
  exists (hd no_token (stm_text xs ++ c :: r)), vs. split; [exact G|]. unfold parse_if_body.
  assert (L := stm_line _ _ _ _ c r Hf Lc).
  rewrite run_skip by assumption.
  change (bind cur ?h (PState (rev s ++ a) (stm_text xs ++ c :: r) ps (d0 :: d) l f))
    with (h (hd no_token (stm_text xs ++ c :: r)) (PState (rev s ++ a) (stm_text xs ++ c :: r) ps (d0 :: d) l f)). cbv beta.
  rewrite run_validate by (apply (sound_body [] false returns l); try assumption; try reflexivity; apply closer_sound; assumption).
  rewrite run_no_skip by exact L.
  rewrite (bind_ok _ _ _ _ _ R). run1. rewrite Ec. reflexivity.
Qed.

(** *** The bodies of [when] *)
Definition case_stop (t : ttype) : bool := ttype_eqb t T_WhenKeyword || ttype_eqb t T_ElseKeyword || ttype_eqb t T_EndKeyword.
Lemma case_closer c : case_stop (ty c) = true -> closer c = true /\ is_end_of_line (ty c) = false.
Proof. unfold closer. destruct (ty c); try discriminate; split; reflexivity. Qed.
Lemma starts_case t : starts t = true -> is_eof t || case_stop t = false.
Proof. destruct t; (reflexivity || discriminate). Qed.
Lemma case_loop c : case_stop (ty c) = true ->
  forall xs k acc a r ps d0 d l f, (length (stm_text xs) < m)%nat -> statements_fit after fits true returns l xs = true ->
  (existsb (fun x => shallow (fst x)) xs = true -> d0 = 0) -> (length xs < k)%nat ->
  exists vs, goods fst l xs vs /\
    mloop k (fun acc =>
         c <- cty ;;
         if is_eof c || case_stop c then ret (inr acc)
         else
           e <- pexpr E LOWEST ;;
           validate_current_token ;;;
           next_expression ;;;
           ret (inl (acc ++ [e]))) acc (PState a (stm_text xs ++ c :: r) ps (d0 :: d) l f) =
    POk (acc ++ vs) (PState (rev (stm_text xs) ++ a) (c :: r) ps (d0 :: d) (stm_after l xs) f).
Proof.
  intros Ec. destruct (case_closer c Ec) as [Cc Lc].
  induction xs as [|[e s] xs IHx]; intros k acc a r ps d0 d l f Hm Hf Hd Hk.
  - exists []. split; [exact I|]. destruct k as [|k]; [exfalso; clear - Hk; cbn in Hk; lia|]. apply loop_done. cbn [stm_text flat_map app rev].
    run1. rewrite Ec, orb_true_r. rewrite app_nil_r. reflexivity.
  - destruct k as [|k]; [exfalso; clear - Hk; cbn in Hk; lia|]. cbn [length] in Hk.
    apply statements_cons in Hf as (Hfe & Hs & Hl & Hx). cbn [existsb fst] in Hd.
    cbn [stm_text flat_map fst snd] in Hm |- *. rewrite !app_length in Hm.
    change (flat_map (fun x => text (fst x) ++ snd x) xs) with (stm_text xs) in *.
    assert (Lm : (length (text e) < m)%nat) by (clear - Hm; lia).
    assert (Lx : (length (stm_text xs) < m)%nat) by (clear - Hm; lia).
    assert (Lk : (length xs < k)%nat) by (clear - Hk; lia). clear Hm.
    pose proof (starts_head l e Hfe) as St.
    assert (W := starts_case _ St).
    rewrite <- app_assoc.
    assert (Hde : shallow e = true -> d0 = 0) by (intros X; apply Hd; rewrite X; reflexivity).
    assert (Hdx : existsb (fun x => shallow (fst x)) xs = true -> d0 = 0) by (intros X; apply Hd; rewrite X, orb_true_r; reflexivity).
    destruct s as [|x s]; [destruct (Hl eq_refl) as (_ & X & _); discriminate X|].
    assert (Cx : separator x = true) by (cbn [forallb] in Hs; bools; assumption).
    destruct (statement_ok e x ((s ++ stm_text xs) ++ c :: r) a ps d0 d l f Lm Hfe (separator_closer x Cx)
      (fun _ => proj2 (separator_end x Cx)) Hde) as (v & G & V).
    destruct (IHx k (acc ++ [v]) (rev (x :: s) ++ rev (text e) ++ a) r ps d0 d (after l e) f Lx Hx Hdx Lk) as (vs & Gs & R).
    exists (v :: vs). split; [split; assumption|].
    rewrite (loop_step k _ acc _ (acc ++ [v])
      (PState (rev (x :: s) ++ rev (text e) ++ a) (stm_text xs ++ c :: r) ps (d0 :: d) (after l e) f)).
    + etransitivity; [exact R|]. f_equal; [rewrite <- app_assoc; reflexivity|].
      f_equal. rewrite !rev_app_distr, <- !app_assoc. reflexivity.
    + rewrite <- ?app_assoc. cbn [app]. rewrite <- ?app_assoc.
      rewrite <- app_assoc in V.
      run1. rewrite W. rewrite (bind_ok _ _ _ _ _ V).
      rewrite run_validate by (unfold sound; apply separator_closer, closer_okf, andb_true_iff in Cx as [X _]; cbn [hd]; rewrite X, orb_true_r; reflexivity).
      rewrite run_next; [reflexivity|exact Hs|eapply stm_line; eassumption].
Qed.
Lemma case_body_ok xs c a r ps d0 d l f : case_stop (ty c) = true -> (length (stm_text xs) < m)%nat ->
  statements_fit after fits true returns l xs = true -> (existsb (fun x => shallow (fst x)) xs = true -> d0 = 0) ->
  exists t0 vs, goods fst l xs vs /\
    parse_case_body E F T_WhenKeyword (PState a (stm_text xs ++ c :: r) ps (d0 :: d) l f) =
    POk (t0, vs) (PState (rev (stm_text xs) ++ a) (c :: r) ps (d0 :: d) (stm_after l xs) f).
Proof.
  intros Ec Hm Hf Hd. destruct (case_closer c Ec) as [Cc Lc]. pose proof (stm_count xs).
  destruct (case_loop c Ec xs F [] a r ps d0 d l f Hm Hf Hd ltac:(lia)) as (vs & G & R).
  exists (hd no_token (stm_text xs ++ c :: r)), vs. split; [exact G|]. unfold parse_case_body.
  change (bind cur ?h (PState a (stm_text xs ++ c :: r) ps (d0 :: d) l f))
    with (h (hd no_token (stm_text xs ++ c :: r)) (PState a (stm_text xs ++ c :: r) ps (d0 :: d) l f)). cbv beta.
  rewrite run_validate by (apply (sound_body [] true returns l); try assumption; try reflexivity; apply closer_sound; assumption).
  rewrite run_no_skip by (eapply stm_line; eassumption).
  cbv zeta. unfold case_stop in R.
  rewrite (bind_ok _ _ _ _ _ R). run1. unfold case_stop in Ec. rewrite Ec. reflexivity.
Qed.

End Bodies.

(** *** Programs *)
Lemma tree_loop m c : Main m -> ty c = T_Eof ->
  forall xs k acc a r ps d l f, (length (stm_text xs) < m)%nat ->
  statements_fit after fits false (fun _ => false) l xs = true -> (length xs < k)%nat ->
  exists vs, goods fst l xs vs /\
    mloop k (fun acc =>
         c <- cty ;;
         if is_eof c then ret (inr acc)
         else
           e <- parse_expression m LOWEST IA_CURLY_AND_BLOCK ;;
           validate_current_token ;;;
           next_expression ;;;
           ret (inl (acc ++ [e]))) acc (PState a (stm_text xs ++ c :: r) ps (0 :: d) l f) =
    POk (acc ++ vs) (PState (rev (stm_text xs) ++ a) (c :: r) ps (0 :: d) (stm_after l xs) f).
Proof.
  intros IH Ec. assert (Cc : closer c = true) by (unfold closer; rewrite Ec; reflexivity).
  assert (Lc : is_end_of_line (ty c) = false) by (rewrite Ec; reflexivity).
  induction xs as [|[e s] xs IHx]; intros k acc a r ps d l f Hm Hf Hk.
  - exists []. split; [exact I|]. destruct k as [|k]; [exfalso; clear - Hk; cbn in Hk; lia|]. apply loop_done. cbn [stm_text flat_map app rev].
    run1. rewrite Ec. rewrite app_nil_r. reflexivity.
  - destruct k as [|k]; [exfalso; clear - Hk; cbn in Hk; lia|]. cbn [length] in Hk.
    apply statements_cons in Hf as (Hfe & Hs & Hl & Hx).
    cbn [stm_text flat_map fst snd] in Hm |- *. rewrite !app_length in Hm.
    change (flat_map (fun x => text (fst x) ++ snd x) xs) with (stm_text xs) in *.
    assert (Lm : (length (text e) < m)%nat) by (clear - Hm; lia).
    assert (Lx : (length (stm_text xs) < m)%nat) by (clear - Hm; lia).
    assert (Lk : (length xs < k)%nat) by (clear - Hk; lia). clear Hm.
    pose proof (starts_head l e Hfe) as St.
    assert (W : is_eof (ty (head e)) = false) by (apply starts_not; [reflexivity|exact St]).
    rewrite <- app_assoc.
    destruct s as [|x s].
    + destruct (Hl eq_refl) as (_ & _ & ->). clear Hl.
      destruct (statement_ok m IH e c r a ps 0 d l f Lm Hfe Cc ltac:(rewrite Ec; reflexivity) ltac:(reflexivity)) as (v & G & V).
      exists [v]. split; [split; [exact G|exact I]|].
      rewrite (loop_step k _ acc _ (acc ++ [v]) (PState (rev (text e) ++ a) (c :: r) ps (0 :: d) (after l e) f)).
      * destruct k as [|k]; [exfalso; clear - Hk; cbn in Hk; lia|]. apply loop_done. run1. rewrite Ec. cbn [app rev stm_text flat_map]. rewrite !app_nil_r. reflexivity.
      * rewrite <- ?app_assoc. cbn [app stm_text flat_map]. rewrite ?app_nil_r. run1. rewrite W. unfold pexpr in V. rewrite (bind_ok _ _ _ _ _ V).
        rewrite run_validate by (unfold sound; apply closer_okf, andb_true_iff in Cc as [X _]; cbn [hd]; rewrite X, orb_true_r; reflexivity).
        rewrite run_next_end; [reflexivity|rewrite Ec; reflexivity|exact Lc].
    + assert (Cx : separator x = true) by (cbn [forallb] in Hs; bools; assumption).
      destruct (statement_ok m IH e x ((s ++ stm_text xs) ++ c :: r) a ps 0 d l f Lm Hfe (separator_closer x Cx)
        (fun _ => proj2 (separator_end x Cx)) ltac:(reflexivity)) as (v & G & V).
      destruct (IHx k (acc ++ [v]) (rev (x :: s) ++ rev (text e) ++ a) r ps d (after l e) f Lx Hx Lk) as (vs & Gs & R).
      exists (v :: vs). split; [split; assumption|].
      rewrite (loop_step k _ acc _ (acc ++ [v])
        (PState (rev (x :: s) ++ rev (text e) ++ a) (stm_text xs ++ c :: r) ps (0 :: d) (after l e) f)).
      * etransitivity; [exact R|]. f_equal; [rewrite <- app_assoc; reflexivity|].
        f_equal. rewrite !rev_app_distr, <- !app_assoc. reflexivity.
      * rewrite <- ?app_assoc. cbn [app]. rewrite <- ?app_assoc.
        rewrite <- app_assoc in V.
        run1. rewrite W. unfold pexpr in V. rewrite (bind_ok _ _ _ _ _ V).
        rewrite run_validate by (unfold sound; apply separator_closer, closer_okf, andb_true_iff in Cx as [X _]; cbn [hd]; rewrite X, orb_true_r; reflexivity).
        rewrite run_next; [reflexivity|exact Hs|eapply stm_line; eassumption].
Qed.
Lemma tree_ok m b c file : Main m -> ty c = T_Eof -> (length (body_text text b) < m)%nat -> program_fits b = true ->
  exists t0 vs s', goods fst [] (snd b) vs /\
    tree m (PState [] (body_text text b ++ [c]) [] [0] [] file) = POk (block_or_only (t0, vs)) s'.
Proof.
  intros IH Ec Hm Hf. destruct b as [s xs]. unfold program_fits, body_fits in Hf. cbn [fst snd] in Hf.
  apply andb_true_iff in Hf as [Hs Hf]. unfold body_text in *. cbn [fst snd] in *.
  change (flat_map (fun x => text (fst x) ++ snd x) xs) with (stm_text xs) in *. rewrite app_length in Hm.
  pose proof (stm_count xs).
  assert (Cc : closer c = true) by (unfold closer; rewrite Ec; reflexivity).
  assert (Lc : is_end_of_line (ty c) = false) by (rewrite Ec; reflexivity).
  destruct (tree_loop m c IH Ec xs (S m) [] (rev s ++ []) [] [] [] [] file ltac:(lia) Hf ltac:(lia)) as (vs & G & R).
  exists (hd no_token (stm_text xs ++ [c])), vs. eexists. split; [exact G|]. unfold tree. rewrite <- app_assoc.
  assert (L := stm_line _ _ _ _ c [] Hf Lc).
  rewrite run_skip by assumption.
  change (bind cur ?h (PState (rev s ++ []) (stm_text xs ++ [c]) [] [0] [] file))
    with (h (hd no_token (stm_text xs ++ [c])) (PState (rev s ++ []) (stm_text xs ++ [c]) [] [0] [] file)). cbv beta.
  rewrite run_validate by (apply (sound_body [] false (fun _ => false) []); try assumption; try reflexivity; apply closer_sound; assumption).
  rewrite run_no_skip by exact L. rewrite (bind_ok _ _ _ _ _ R). reflexivity.
Qed.

(** * RubyBlock: parameters and blocks

    Running the parser on the parameters of blocks and methods; [Spine] for calls with a
    block.  No code is modelled here. *)
From Coq Require Import Strings.String NArith ZArith Bool List Lia.
From Verif Require Import Base Token Node ParserBase ParserModel Sexp SpecRuby RubyTransform RubyNodes RubyBase RubyRun RubyBody RubyExpr RubyOps RubyForms RubyArgs RubyCalls.
Import ListNotations.
Open Scope N_scope.
Open Scope list_scope.

(** The second token of a default value is not [=]. *)
Lemma no_equal0 n : forall e l u r, (length (text e) <= n)%nat -> fits l e = true -> 4 <= left e -> 4 <= right e ->
  ty u <> T_Equal -> ty (head e) = T_BareName -> ty (nth 1 (text e ++ u :: r) no_token) <> T_Equal.
Proof.
  induction n as [|n IHn]; intros e l u r Hn Hf Hl Hr Hu Hh; [pose proof (text_pos e); lia|].
  assert (Step : forall x t w l', text e = text x ++ t :: w -> fits l' x = true -> 4 <= left x -> 4 <= right x -> ty t <> T_Equal ->
    ty (nth 1 (text e ++ u :: r) no_token) <> T_Equal).
  { intros x t w l' Ex Fx Lx Rx Tx. unfold head in Hh. rewrite Ex in Hn, Hh |- *. rewrite app_length in Hn. cbn [length] in Hn. rewrite <- app_assoc. cbn [app].
    eapply IHn; [clear - Hn; lia|exact Fx|exact Lx|exact Rx|exact Tx|]. rewrite hd_text in Hh. exact Hh. }
  unfold head in Hh.
  destruct e; cbn [left right fits text hd app] in *; unfold ARGUMENT, COMMAND in *;
    try (exfalso; clear - Hl; lia);
    try (exfalso; repeat (match goal with H : _ && _ = true |- _ => apply andb_true_iff in H as [? ?] end);
      match goal with H : is_a _ _ = true |- _ => apply is_a_ty in H; congruence end).
  - exact Hu.
  - exfalso. rewrite Hh in Hf. cbn in Hf. rewrite andb_false_r in Hf. discriminate Hf.
  - apply andb_true_iff in Hf as [Hf Hx]. apply andb_true_iff in Hf as [Fa Fb].
    destruct (binary_level (ty t)) as [k|] eqn:Ek; [|discriminate Hx]. cbn [level_of] in *.
    do 3 apply andb_true_iff in Hx as [Hx _]. apply andb_true_iff in Hx as [H0 _].
    eapply Step; [reflexivity|exact Fa|clear - Hl; lia| |intros X; rewrite X in Ek; discriminate Ek].
    clear - H0 Hl.
    assert (X : k <= right e1 \/ 7 <= right e1).
    { destruct (ty t); try (left; apply N.leb_le; exact H0); try (left; apply N.ltb_lt in H0; lia); right; apply N.leb_le; exact H0. }
    lia.
  - destruct r0 as [|x d].
    + cbn [recv_text app] in *. apply andb_true_iff in Hf as [Hf Fa]. apply andb_true_iff in Hf as [_ Ha].
      destruct a as [|o c|o xs pr|o xs pr t1 e1 c1]; [discriminate Ha| | |]; cbn [args_text app nth args_fit] in *;
        repeat (match goal with H : _ && _ = true |- _ => apply andb_true_iff in H as [? ?] end);
        match goal with H : is_a T_LParen _ = true |- _ => apply is_a_ty in H; rewrite H; discriminate end.
    + apply andb_true_iff in Hf as [Hf _]. repeat (match goal with H : _ && _ = true |- _ => apply andb_true_iff in H as [? ?] end).
      match goal with H : (PRIMARY <=? _) = true |- _ => apply N.leb_le in H; rename H into Rx end.
      match goal with H : is_a T_Dot _ || _ = true |- _ => rename H into Td end.
      eapply (Step x d (n0 :: args_text text a) l); [cbn [recv_text]; rewrite <- app_assoc; reflexivity|assumption| | |].
      * destruct (number x) eqn:Nx; [rewrite (primary_number x Rx Nx); discriminate|exact Hl].
      * unfold PRIMARY in Rx. clear - Rx. lia.
      * apply orb_true_iff in Td as [T|T]; apply is_a_ty in T; rewrite T; discriminate.
  - repeat (match goal with H : _ && _ = true |- _ => apply andb_true_iff in H as [? ?] end).
    match goal with H : (PRIMARY <=? _) = true |- _ => apply N.leb_le in H; unfold PRIMARY in H; rename H into Rx end.
    match goal with H : is_a T_LBracket _ = true |- _ => apply is_a_ty in H; rename H into T end.
    eapply Step; [reflexivity|eassumption|exact Hl|clear - Rx; lia|rewrite T; discriminate].
  - repeat (match goal with H : _ && _ = true |- _ => apply andb_true_iff in H as [? ?] end).
    match goal with H : (PRIMARY <=? _) = true |- _ => apply N.leb_le in H; unfold PRIMARY in H; rename H into Rx end.
    match goal with H : is_a T_ConstantResolution _ = true |- _ => apply is_a_ty in H; rename H into T end.
    eapply Step; [reflexivity|eassumption|exact Hl|clear - Rx; lia|rewrite T; discriminate].
  - repeat (match goal with H : _ && _ = true |- _ => apply andb_true_iff in H as [? ?] end).
    match goal with H : is_a T_LCurlyBrace _ || is_a T_DoKeyword _ = true |- _ => rename H into T end.
    match goal with H : blockable _ _ _ = true |- _ => rename H into Bl end.
    eapply Step; [reflexivity|eassumption|exact Hl| |].
    + destruct e; try discriminate Bl; cbn [left right] in *; unfold PRIMARY, COMMAND in *; clear - Hl; lia.
    + apply orb_true_iff in T as [T|T]; apply is_a_ty in T; rewrite T; discriminate.
  - exfalso. repeat (match goal with H : _ && _ = true |- _ => apply andb_true_iff in H as [? ?] end).
    match goal with H : is_a T_WhileKeyword _ || _ = true |- _ => apply orb_true_iff in H as [H|H]; apply is_a_ty in H; congruence end.
  - exfalso. repeat (match goal with H : _ && _ = true |- _ => apply andb_true_iff in H as [? ?] end).
    match goal with H : is_a T_YieldKeyword _ || _ = true |- _ => apply orb_true_iff in H as [H|H]; apply is_a_ty in H; congruence end.
  - exfalso. rewrite Hh in Hf. discriminate Hf.
  - discriminate Hf.
Qed.
Lemma no_equal e l u r : fits l e = true -> 4 <= left e -> 4 <= right e ->
  ty u <> T_Equal -> ttype_eqb (ty (head e)) T_BareName && ttype_eqb (ty (nth 1 (text e ++ u :: r) no_token)) T_Equal = false.
Proof.
  intros Hf Hl Hr Hu. destruct (ttype_eqb (ty (head e)) T_BareName) eqn:H; [|reflexivity]. apply eqb_eq in H. cbn [andb].
  apply eqb_diff. eapply no_equal0; try eassumption. apply le_n.
Qed.

(** ** Parameters *)
Definition param_end (u : token) : Prop := ty u = T_Comma \/ ty u = T_Pipe \/ ty u = T_RParen.
(** What the list of parameters so far says of the next. *)
Definition order (last : N) (acc : list node) : Prop :=
  (args_have_keyword acc = true -> 4 <= last) /\ (args_have_any_splat acc = true -> 2 <= last) /\
  match last_arg acc with Some (N_ForwardArgs _) => False | _ => True end.
Lemma last_snoc acc v : last_arg (acc ++ [v]) = Some v.
Proof. unfold last_arg. rewrite rev_app_distr. reflexivity. Qed.
Lemma order_arg k acc t n b s kw v : (s || kw = true -> 2 <= k) -> order k (acc ++ [N_Arg t n b s kw v]).
Proof. intros H. unfold order, args_have_keyword, args_have_any_splat. rewrite last_snoc. repeat split; [discriminate|exact H]. Qed.
Lemma order_kwarg k acc t n v : 4 <= k -> order k (acc ++ [N_KeywordArg t n v]).
Proof. intros H. unfold order, args_have_keyword, args_have_any_splat. rewrite last_snoc. repeat split; [intros _; exact H|discriminate]. Qed.
Definition forward_free (acc : list node) : Prop := match last_arg acc with Some (N_ForwardArgs _) => False | _ => True end.
Lemma run_forward {B} acc (X : M unit) (k : unit -> M B) s : forward_free acc ->
  bind (match last_arg acc with Some (N_ForwardArgs _) => X | _ => ret tt end) k s = k tt s.
Proof. unfold forward_free. destruct (last_arg acc) as [[]|]; try contradiction; reflexivity. Qed.

Section Params.
Variable m : nat.
Hypothesis IH : Main m.
Notation E := (parse_expression m).
Notation F := (m + m + 2)%nat.

Lemma default_ok e u r a ps d0 d l f : as_default fits l e = true -> (length (text e) < m)%nat -> param_end u ->
  (shallow e = true -> d0 = 0) ->
  exists v, good l e v /\
    E DEF_ARG IA_CURLY_AND_BLOCK (PState a (text e ++ u :: r) ps (d0 :: d) l f) =
    POk v (PState (rev (text e) ++ a) (u :: r) ps (d0 :: d) (after l e) f).
Proof.
  intros Hf Hm Hu Hs. unfold as_default, at_least in Hf. apply andb_true_iff in Hf as [Hf Ha]. apply andb_true_iff in Ha as [La Ra].
  apply N.leb_le in La, Ra.
  assert (Ku : okf u = true /\ (forall b, level (ty u) b <= 25) /\ ty u <> T_DoKeyword)
    by (unfold okf; destruct Hu as [T|[T|T]]; rewrite T; repeat split; (discriminate || (intros b; cbn; lia))).
  destruct Ku as (Ku & Lu & Du).
  assert (As : assigns e = false) by (destruct (assigns e) eqn:X; [apply assigns_right in X; clear - X Ra; lia|reflexivity]).
  apply IH; [exact Hm| |change DEF_ARG with 28; specialize (Lu (number e)); clear - Lu; lia|contradiction].
  constructor; try assumption.
  - pose proof (lthr_mono 12 (left e) La) as X. change (lthr 12) with 29 in X. change DEF_ARG with 28. clear - X. lia.
  - pose proof (rthr_mono 12 (right e) Ra) as X. change (rthr 12) with 29 in X. specialize (Lu (number e)). clear - X Lu. lia.
  - discriminate.
  - intros X. split; [apply Hs; exact X|reflexivity].
  - contradiction.
  - intros _. clear - Ra. lia.
  - intros _. left. exact As.
  - intros X. apply returns_right in X. clear - X Ra. lia.
Qed.
Lemma default_value_ok n e u r a ps d0 d l f : as_default fits l e = true -> (length (text e) < m)%nat -> param_end u ->
  (shallow e = true -> d0 = 0) ->
  exists v, good l e v /\
    arg_default_value E (S n) IA_CURLY_AND_BLOCK (PState a (text e ++ u :: r) ps (d0 :: d) l f) =
    POk v (PState (rev (text e) ++ a) (u :: r) ps (d0 :: d) (after l e) f).
Proof.
  intros Hf Hm Hu Hs. destruct (default_ok e u r a ps d0 d l f Hf Hm Hu Hs) as (v & G & V). exists v. split; [exact G|].
  unfold as_default, at_least in Hf. apply andb_true_iff in Hf as [Hf Ha]. apply andb_true_iff in Ha as [La Ra].
  apply N.leb_le in La, Ra. cbn [arg_default_value].
  change (bind cur ?h (PState a (text e ++ u :: r) ps (d0 :: d) l f)) with (h (hd no_token (text e ++ u :: r)) (PState a (text e ++ u :: r) ps (d0 :: d) l f)). cbv beta.
  change (bind peek ?h (PState a (text e ++ u :: r) ps (d0 :: d) l f)) with (h (nth 1 (text e ++ u :: r) no_token) (PState a (text e ++ u :: r) ps (d0 :: d) l f)). cbv beta.
  rewrite hd_text, (no_equal e l u r); [exact V|exact Hf|clear - La; lia|clear - Ra; lia|].
  destruct Hu as [T|[T|T]]; rewrite T; discriminate.
Qed.

Ltac go_param O3 := cbn [def_single_arg]; run1; rewrite (run_forward _ _ _ _ O3); types; cbv iota.
Lemma param_ok n ctx x u last acc r a ps d0 d l f : param_fits (as_default fits) l x = true -> param_end u ->
  (if once x then last <? stage last x else last <=? stage last x) = true -> order last acc ->
  (length (param_text text x) <= m)%nat -> (param_shallow shallow x = true -> d0 = 0) ->
  exists v, pstands v (param_meaning meaning l x) /\ order (stage last x) (acc ++ [v]) /\
    def_single_arg E F (S n) ctx IA_CURLY_AND_BLOCK acc (PState a (param_text text x ++ u :: r) ps (d0 :: d) l f) =
    POk (acc ++ [v]) (PState (rev (param_text text x) ++ a) (u :: r) ps (d0 :: d) (param_after after l x) f).
Proof.
  intros Hf Hu Ho (O1 & O2 & O3) Hm Hs. fold (forward_free acc) in O3.
  assert (Nu : ttype_eqb (ty u) T_Equal = false) by (destruct Hu as [T|[T|T]]; rewrite T; reflexivity).
  assert (K4 : last < 4 -> args_have_keyword acc = false) by (intros X; destruct (args_have_keyword acc); [specialize (O1 eq_refl); clear - O1 X; lia|reflexivity]).
  assert (K2 : last < 2 -> args_have_any_splat acc = false) by (intros X; destruct (args_have_any_splat acc); [specialize (O2 eq_refl); clear - O2 X; lia|reflexivity]).
  clear O1 O2.
  destruct x as [t|t q e|s t|t|t e|s t|s t]; cbn [param_fits param_text param_after param_meaning param_shallow once stage length app] in *;
    repeat (match goal with H : _ && _ = true |- _ => apply andb_true_iff in H as [? ?] end);
    match goal with H : named t = true |- _ => destruct (named_ok t H) as [Ln Cn]; clear H end;
    repeat (match goal with H : is_a _ _ = true |- _ => apply is_a_ty in H end).
  - exists (N_Arg t (Some (name t)) false false false None). split; [apply pstands_req|]. split; [apply order_arg; discriminate|].
    apply N.leb_le in Ho. go_param O3. rewrite K4 by (clear - Ho; destruct (last <=? 0); lia). unfold literal_string. rewrite Ln. run1. run1. run1. rewrite Cn. run1. rewrite Nu. reflexivity.
  - apply N.leb_le in Ho.
    destruct (default_value_ok (m + m + 1) e u r (q :: t :: a) ps d0 d (name t :: l) f ltac:(eassumption) ltac:(clear - Hm; lia) Hu Hs) as (v & G & V).
    exists (N_Arg t (Some (name t)) false false false (Some v)). split; [apply pstands_opt; exact (g_stands _ _ _ G)|]. split; [apply order_arg; discriminate|].
    go_param O3. rewrite K4 by (clear - Ho; lia). unfold literal_string. rewrite Ln. run1. run1. run1. rewrite Cn. run1. types. cbv iota. rewrite K2 by (clear - Ho; lia). run1.
    unfold parse_arg_default_value. replace F with (S (m + m + 1)) by (clear; lia). rewrite (bind_ok _ _ _ _ _ V). cbn [rev]. rewrite <- !app_assoc. reflexivity.
  - apply N.ltb_lt in Ho.
    exists (N_Arg s (Some (name t)) false true false None). split; [apply pstands_splat|]. split; [apply order_arg; intros _; discriminate|].
    go_param O3. rewrite K2 by (clear - Ho; lia). run1. run1. types. cbv iota. unfold literal_string. rewrite Ln. run. rewrite Cn. reflexivity.
  - exists (N_KeywordArg t (name t) None). split; [apply pstands_kreq|]. split; [apply order_kwarg; discriminate|].
    go_param O3. unfold literal_string. rewrite Ln. run1. run1. run1.
    destruct Hu as [T|[T|T]]; rewrite T; run1; run1; rewrite Cn; reflexivity.
  - destruct (default_ok e u r (t :: a) ps d0 d l f ltac:(eassumption) ltac:(clear - Hm; lia) Hu Hs) as (v & G & V).
    exists (N_KeywordArg t (name t) (Some v)). split; [apply pstands_kopt; exact (g_stands _ _ _ G)|]. split; [apply order_kwarg; discriminate|].
    match goal with H : as_default fits l e = true |- _ => unfold as_default in H; apply andb_true_iff in H as [Fe _] end.
    pose proof (starts_head l e Fe) as Sh.
    go_param O3. unfold literal_string. rewrite Ln. run1. run1.
    change (bind cty ?h (PState ?x1 ?x2 ?x3 ?x4 ?x5 ?x6)) with (h (ty (hd no_token x2)) (PState x1 x2 x3 x4 x5 x6)). cbv beta. rewrite hd_text.
    assert (X : forall T (y z : T), match ty (head e) with T_Comma | T_Newline | T_Pipe | T_RParen | T_Semicolon => y | _ => z end = z)
      by (intros; destruct (ty (head e)); (reflexivity || discriminate Sh)).
    rewrite X. rewrite andb_false_r. rewrite bind_assoc, (bind_ok _ _ _ _ _ V). run1. run1. rewrite Cn. cbn [rev]. rewrite <- !app_assoc. reflexivity.
  - exists (N_Arg s (Some (name t)) false false true None). split; [apply pstands_ksplat|]. split; [apply order_arg; intros _; discriminate|].
    go_param O3. run1. run1. types. cbv iota. unfold literal_string. rewrite Ln. run. rewrite Cn. reflexivity.
  - exists (N_Arg s (Some (name t)) true false false None). split; [apply pstands_block|]. split; [apply order_arg; discriminate|].
    go_param O3. run1. run. unfold literal_string. rewrite Ln. run. rewrite Cn. reflexivity.
Qed.

Definition ptext (xs : list (param rb * token)) : list token := flat_map (fun x => param_text text (fst x) ++ [snd x]) xs.
Definition ps_after (l : list str) (xs : list (param rb * token)) : list str := after_all (fun l x => param_after after l (fst x)) l xs.
Definition ps_meaning (l : list str) (xs : list (param rb * token)) : list sexp :=
  map_all (fun l x => param_after after l (fst x)) (fun l x => param_meaning meaning l (fst x)) l xs.
Definition ps_fit (l : list str) (xs : list (param rb * token)) : bool :=
  forallb (fun b => b) (map_all (fun l x => param_after after l (fst x)) (fun l x => param_fits (as_default fits) l (fst x)) l xs).
Lemma ptext_cons x s xs : ptext ((x, s) :: xs) = param_text text x ++ s :: ptext xs.
Proof. unfold ptext. cbn [flat_map fst snd]. rewrite <- app_assoc. reflexivity. Qed.
Lemma ps_fit_cons l x s xs : ps_fit l ((x, s) :: xs) = true -> param_fits (as_default fits) l x = true /\ ps_fit (param_after after l x) xs = true.
Proof. unfold ps_fit. cbn [map_all forallb fst]. apply andb_true_iff. Qed.
Lemma ptext_count xs : (length xs <= length (ptext xs))%nat.
Proof. induction xs as [|[x s] xs IHx]; [cbn; lia|]. rewrite ptext_cons, app_length. cbn [length]. lia. Qed.
Lemma param_hd l x r : param_fits (as_default fits) l x = true -> let t := ty (hd no_token (param_text text x ++ r)) in
  t <> T_Pipe /\ t <> T_RParen /\ t <> T_Semicolon.
Proof.
  intros Hf. destruct x; cbn [param_fits param_text app hd] in *;
    repeat (match goal with H : _ && _ = true |- _ => apply andb_true_iff in H as [? ?] end);
    repeat (match goal with H : is_a _ _ = true |- _ => apply is_a_ty in H; rewrite H end); repeat split; discriminate.
Qed.

Lemma param_loop ctx close (B : list node -> M (list node + list node)) : close = T_Pipe \/ close = T_RParen ->
  (forall acc a t w ps d l f, ty t = T_Comma -> ty (hd no_token w) <> T_Pipe ->
     B acc (PState a (t :: w) ps d l f) = bind (def_single_arg E F F ctx IA_CURLY_AND_BLOCK acc) (fun acc => ret (inl acc)) (PState (t :: a) w ps d l f)) ->
  (forall acc a t w ps d l f, ty t <> T_Comma -> B acc (PState a (t :: w) ps d l f) = POk (inr acc) (PState a (t :: w) ps d l f)) ->
  forall xs s k last acc r a ps d0 d l f,
  closed close (s :: map snd xs) = true -> ps_fit l xs = true -> in_order last (map fst xs) = true -> order last acc ->
  (length (ptext xs) <= m)%nat -> (length xs < k)%nat -> (existsb (fun x => param_shallow shallow (fst x)) xs = true -> d0 = 0) ->
  exists vs u w, Forall2 pstands vs (ps_meaning l xs) /\ ty u = close /\ s :: ptext xs = w ++ [u] /\
    mloop k B acc (PState a (s :: ptext xs ++ r) ps (d0 :: d) l f) =
    POk (acc ++ vs) (PState (rev w ++ a) (u :: r) ps (d0 :: d) (ps_after l xs) f).
Proof.
  intros Cl B1 B2. induction xs as [|[x s'] xs IHx]; intros s k last acc r a ps d0 d l f Hc Hf Ho Oa Hm Hk Hs.
  - apply is_a_ty in Hc. exists [], s, []. split; [constructor|]. split; [exact Hc|]. split; [reflexivity|]. destruct k as [|k]; [inversion Hk|].
    apply loop_done. cbn [ptext flat_map app rev]. rewrite app_nil_r. apply B2. destruct Cl; congruence.
  - cbn [map snd] in Hc. apply closed_cons in Hc as [Hs1 Hc]. apply ps_fit_cons in Hf as [Hx Hf]. cbn [map fst in_order existsb] in Ho, Hs.
    apply andb_true_iff in Ho as [Ho1 Ho2]. rewrite ptext_cons in *. rewrite app_length in Hm. cbn [length] in Hm, Hk. destruct k as [|k]; [inversion Hk|].
    assert (Pe : param_end s').
    { destruct xs as [|[? ?] xs]; [apply is_a_ty in Hc; unfold param_end; destruct Cl; subst; auto|cbn [map snd] in Hc; apply closed_cons in Hc; left; tauto]. }
    destruct (param_ok (m + m + 1) ctx x s' last acc (ptext xs ++ r) (s :: a) ps d0 d l f Hx Pe Ho1 Oa ltac:(clear - Hm; lia)
      ltac:(intros X; apply Hs; rewrite X; reflexivity)) as (v & Sv & Ov & V).
    destruct (IHx s' k (stage last x) (acc ++ [v]) r (rev (param_text text x) ++ s :: a) ps d0 d (param_after after l x) f Hc Hf Ho2 Ov ltac:(clear - Hm; lia) ltac:(clear - Hk; lia)
      ltac:(intros X; apply Hs; rewrite X, orb_true_r; reflexivity)) as (vs & u & w & Svs & Tu & Ew & R).
    exists (v :: vs), u, (s :: param_text text x ++ w). split; [constructor; assumption|]. split; [exact Tu|]. split.
    + rewrite Ew. cbn [app]. rewrite <- app_assoc. reflexivity.
    + rewrite <- app_assoc. cbn [app]. rewrite (loop_step k B acc _ (acc ++ [v]) (PState (rev (param_text text x) ++ s :: a) (s' :: ptext xs ++ r) ps (d0 :: d) (param_after after l x) f)).
      * rewrite R. rewrite <- app_assoc. cbn [app rev ps_after after_all fst]. rewrite rev_app_distr, <- !app_assoc. reflexivity.
      * rewrite B1; [|exact Hs1|apply (param_hd l x _ Hx)]. replace F with (S (m + m + 1)) at 2 by (clear; lia). rewrite (bind_ok _ _ _ _ _ V). reflexivity.
Qed.
(** A list of parameters. *)
Lemma param_list ctx close (B : list node -> M (list node + list node)) : close = T_Pipe \/ close = T_RParen ->
  (forall acc a t w ps d l f, ty t = T_Comma -> ty (hd no_token w) <> T_Pipe ->
     B acc (PState a (t :: w) ps d l f) = bind (def_single_arg E F F ctx IA_CURLY_AND_BLOCK acc) (fun acc => ret (inl acc)) (PState (t :: a) w ps d l f)) ->
  (forall acc a t w ps d l f, ty t <> T_Comma -> B acc (PState a (t :: w) ps d l f) = POk (inr acc) (PState a (t :: w) ps d l f)) ->
  forall xs r a ps d0 d l f,
  closed close (map snd xs) = true -> ps_fit l xs = true -> in_order 0 (map fst xs) = true ->
  (length (ptext xs) <= m)%nat -> (existsb (fun x => param_shallow shallow (fst x)) xs = true -> d0 = 0) ->
  exists vs u w, Forall2 pstands vs (ps_meaning l xs) /\ ty u = close /\ ptext xs = w ++ [u] /\
    forall T (k : list node -> M T), bind (def_single_arg E F F ctx IA_CURLY_AND_BLOCK []) (fun args => bind (mloop F B args) k) (PState a (ptext xs ++ r) ps (d0 :: d) l f) =
    k vs (PState (rev w ++ a) (u :: r) ps (d0 :: d) (ps_after l xs) f).
Proof.
  intros Cl B1 B2 xs r a ps d0 d l f Hc Hf Ho Hm Hs. destruct xs as [|[x s] xs]; [discriminate Hc|].
  cbn [map snd fst in_order existsb] in Hc, Ho, Hs. apply ps_fit_cons in Hf as [Hx Hf]. apply andb_true_iff in Ho as [Ho1 Ho2].
  rewrite ptext_cons in *. rewrite app_length in Hm. cbn [length] in Hm.
  assert (Pe : param_end s).
  { destruct xs as [|[? ?] xs]; [apply is_a_ty in Hc; unfold param_end; destruct Cl; subst; auto|cbn [map snd] in Hc; apply closed_cons in Hc; left; tauto]. }
  destruct (param_ok (m + m + 1) ctx x s 0 [] (ptext xs ++ r) a ps d0 d l f Hx Pe Ho1 ltac:(repeat split; discriminate) ltac:(clear - Hm; lia)
    ltac:(intros X; apply Hs; rewrite X; reflexivity)) as (v & Sv & Ov & V).
  pose proof (ptext_count xs) as Ct.
  destruct (param_loop ctx close B Cl B1 B2 xs s F (stage 0 x) [v] r (rev (param_text text x) ++ a) ps d0 d (param_after after l x) f Hc Hf Ho2 Ov ltac:(clear - Hm; lia) ltac:(clear - Hm Ct; lia)
    ltac:(intros X; apply Hs; rewrite X, orb_true_r; reflexivity)) as (vs & u & w & Svs & Tu & Ew & R).
  exists (v :: vs), u, (param_text text x ++ w). split; [constructor; assumption|]. split; [exact Tu|]. split; [rewrite Ew, app_assoc; reflexivity|].
  intros T k. rewrite <- app_assoc. cbn [app]. replace F with (S (m + m + 1)) at 2 by (clear; lia). rewrite (bind_ok _ _ _ _ _ V). cbn [app].
  rewrite (bind_ok _ _ _ _ _ R). rewrite rev_app_distr, <- app_assoc. reflexivity.
Qed.

(** ** Blocks *)
Lemma body_hd l b c r : forallb separator (fst b) = true -> statements_fit after fits false returns l (snd b) = true ->
  let h := ty (hd no_token (body_text text b ++ c :: r)) in starts h = true \/ h = T_Newline \/ h = T_Semicolon \/ h = ty c.
Proof.
  destruct b as [s xs]. cbn [fst snd]. intros Hs Hf. unfold body_text. cbn [fst snd].
  change (flat_map (fun x => text (fst x) ++ snd x) xs) with (stm_text xs). rewrite <- app_assoc. destruct s as [|t s].
  - cbn [app]. destruct (stm_hd _ _ _ _ c r Hf) as [S|[_ ->]]; auto.
  - cbn [forallb app hd] in *. apply andb_true_iff in Hs as [Hs _]. unfold separator in Hs. apply orb_true_iff in Hs as [T|T]; apply is_a_ty in T; auto.
Qed.

Lemma hd_last e a : hd no_token (rev (text e) ++ a) = last_token e.
Proof.
  unfold last_token. destruct (exists_last (l := text e)) as (w & t & Et); [pose proof (text_pos e); destruct (text e); [cbn in H; lia|discriminate]|].
  rewrite Et, rev_app_distr, last_last. reflexivity.
Qed.
Definition pmeaning (l : list str) (p : params rb) : list sexp := match p with F_some _ xs => ps_meaning l xs | _ => [] end.
Lemma iter_head_ok v p o R a ps d0 d l f : can_accept_a_block v = true -> has_block_pass v = false -> is_callable v = true ->
  params_fit after (as_default fits) T_Pipe T_Pipe l p = true -> (length (params_text text p) <= m)%nat ->
  (params_shallow shallow p = true -> d0 = 0) ->
  ty (hd no_token R) <> T_Pipe -> ty (hd no_token R) <> T_PipePipe ->
  exists vs, Forall2 pstands vs (pmeaning l p) /\
    parse_iter_head E F v (PState a (o :: params_text text p ++ R) ps (d0 :: d) l f) =
    POk (match p with F_none => false | _ => true end, vs) (PState (rev (params_text text p) ++ o :: a) R ps (d0 :: d) (params_after after l p) f).
Proof.
  intros Cb Bp Cl Hf Hm Hs N1 N2.
  assert (X : forall T (g : token -> bool -> list node -> T) (y : T), match v with N_StabbyProc t b l => g t b l | _ => y end = y)
    by (intros; destruct v; (reflexivity || discriminate Cl)).
  unfold parse_iter_head. rewrite Cb, Bp.
  destruct p as [|o' c|o' xs].
  - exists []. split; [constructor|]. cbn [params_text app rev]. rewrite X. clear X. run1.
    change (bind cty ?h (PState ?x1 ?x2 ?x3 ?x4 ?x5 ?x6)) with (h (ty (hd no_token x2)) (PState x1 x2 x3 x4 x5 x6)). cbv beta.
    rewrite (eqb_diff _ _ N1), (eqb_diff _ _ N2). reflexivity.
  - cbn [params_fit] in Hf. apply andb_true_iff in Hf as [T1 T2]. apply is_a_ty in T1, T2.
    exists []. split; [constructor|]. cbn [params_text app rev]. rewrite X. clear X. run. reflexivity.
  - cbn [params_fit] in Hf. apply andb_true_iff in Hf as [Hf Hx]. apply andb_true_iff in Hf as [Hf Ho]. apply andb_true_iff in Hf as [T1 Hc]. apply is_a_ty in T1.
    fold (ps_fit l xs) in Hx. cbn [params_text length] in Hm. fold (ptext xs) in Hm.
    destruct (param_list Ctx_Block T_Pipe
      (fun acc =>
           b <- cur_is T_Comma ;;
           if b then
             advance ;;;
             c <- cur ;;
             if ttype_eqb (ty c) T_Pipe then ret (inr (acc ++ [N_Nil c]))
             else
               acc <- parse_def_single_arg E F Ctx_Block IA_CURLY_AND_BLOCK acc ;;
               ret (inl acc)
           else ret (inr acc)) (or_introl eq_refl)) with (xs := xs) (r := R) (a := o' :: o :: a) (ps := ps) (d0 := d0) (d := d) (l := l) (f := f) as (vs & u & w & Sv & Tu & Ew & V); try assumption.
    { intros acc a1 t1 w1 ps1 d1 l1 f1 T N. run. 
      change (bind cur ?h (PState ?x1 ?x2 ?x3 ?x4 ?x5 ?x6)) with (h (hd no_token x2) (PState x1 x2 x3 x4 x5 x6)). cbv beta.
      rewrite (eqb_diff _ _ N). reflexivity. }
    { intros acc a1 t1 w1 ps1 d1 l1 f1 N. run1. rewrite (eqb_diff _ _ N). reflexivity. }
    { clear - Hm. lia. }
    exists vs. split; [exact Sv|]. cbn [params_text app rev]. fold (ptext xs). rewrite X. clear X. run.
    assert (Hh : ty (hd no_token (ptext xs ++ R)) <> T_Pipe /\ ty (hd no_token (ptext xs ++ R)) <> T_Semicolon).
    { destruct xs as [|[x s] xs]; [discriminate Hc|]. apply ps_fit_cons in Hx as [Hx _]. rewrite ptext_cons, <- app_assoc.
      destruct (param_hd l x ((s :: ptext xs) ++ R) Hx) as (? & ? & ?). split; assumption. }
    destruct Hh as [H1 H2].
    change (bind (cur_is ?z) ?h (PState ?x1 ?x2 ?x3 ?x4 ?x5 ?x6)) with (h (ttype_eqb (ty (hd no_token x2)) z) (PState x1 x2 x3 x4 x5 x6)). cbv beta.
    rewrite (eqb_diff _ _ H1).
    assert (V' : parse_iter_args E F [] (PState (o' :: o :: a) (ptext xs ++ R) ps (d0 :: d) l f) = POk vs (PState (rev w ++ o' :: o :: a) (u :: R) ps (d0 :: d) (ps_after l xs) f)).
    { unfold parse_iter_args.
      change (bind (cur_is ?z) ?h (PState ?x1 (ptext xs ++ R) ?x3 ?x4 ?x5 ?x6)) with (h (ttype_eqb (ty (hd no_token (ptext xs ++ R))) z) (PState x1 (ptext xs ++ R) x3 x4 x5 x6)). cbv beta.
      rewrite (eqb_diff _ _ H2).
      etransitivity; [exact (V _ _)|].
      run. reflexivity. }
    rewrite (bind_ok _ _ _ _ _ V'). run. rewrite Ew, rev_app_distr, <- app_assoc. reflexivity.
Qed.

Lemma spine_block c o p b t : Spine m c -> Spine m (R_block c o p b t).
Proof.
  intros Sc q ia u r a ps d0 d l f Hm K. pose proof (f_fits _ _ _ _ _ _ K) as Hf. cbn [fits] in Hf. cbv zeta in Hf.
  apply andb_true_iff in Hf as [Hf Hb]. apply andb_true_iff in Hf as [Hf Hp]. apply andb_true_iff in Hf as [Hf Ht].
  apply andb_true_iff in Hf as [Hf Bl]. apply andb_true_iff in Hf as [Fc To].
  unfold body_fits in Hb. apply andb_true_iff in Hb as [Hb1 Hb2].
  pose proof (f_shallow _ _ _ _ _ _ K) as Sk. cbn [shallow] in Sk.
  cbn [text] in Hm. rewrite !app_length in Hm. cbn [length] in Hm. rewrite !app_length in Hm. cbn [length] in Hm.
  assert (Ty : ty o = T_LCurlyBrace /\ ty t = T_RCurlyBrace \/ ty o = T_DoKeyword /\ ty t = T_EndKeyword).
  { unfold is_a in *. apply orb_true_iff in To as [T|T]; apply eqb_eq in T; rewrite T in *; [left|right]; (split; [reflexivity|apply eqb_eq; exact Ht]). }
  assert (Ko : okf o = true /\ is_valid (ty o) = true /\ ty o <> T_Comma /\ ty o <> T_HashRocket) by (unfold okf; destruct Ty as [[T _]|[T _]]; rewrite T; repeat split; discriminate).
  destruct Ko as (Ko & Vo & No1 & No2).
  assert (Hc : block_head c = true /\ (is_a T_DoKeyword o = true \/ right c = PRIMARY) /\ 2 <= right c /\ returns c = false).
  { destruct c; try discriminate Bl; cbn [block_head right returns]; unfold PRIMARY, COMMAND; (split; [first [reflexivity|cbn [blockable] in Bl; apply andb_true_iff in Bl as [_ Bl]; exact Bl]|]); (split; [|split; [clear; lia|reflexivity]]);
      try (right; reflexivity); cbn [blockable] in Bl; apply andb_true_iff in Bl as [Bl _]; apply negb_true_iff in Bl; left; rewrite Bl in To; exact To. }
  destruct Hc as (Hc & Rc & Rc2 & Ret).
  destruct (Sc q ia o (params_text text p ++ body_text text b ++ [t] ++ u :: r) a ps d0 d l f ltac:(clear - Hm; lia)) as (v & j & G & Hj & R).
  { constructor; try assumption.
    - exact (f_left _ _ _ _ _ _ K).
    - destruct Rc as [T|T].
      + apply is_a_ty in T. rewrite T. apply N.le_0_l.
      + rewrite T. destruct Ty as [[X _]|[X _]]; rewrite X; discriminate.
    - exact (f_ia _ _ _ _ _ _ K).
    - intros X. apply Sk. rewrite X, orb_true_r. reflexivity.
    - intros _. right. exact Hc.
    - intros [X|X]; contradiction.
    - intros X; contradiction.
    - rewrite Ret. discriminate. }
  fold (reach m q ia j (PState a (text c ++ o :: params_text text p ++ body_text text b ++ [t] ++ u :: r) (q :: ps) (d0 :: d) l f) v
     (PState (rev (text c) ++ a) (o :: params_text text p ++ body_text text b ++ [t] ++ u :: r) (q :: ps) (d0 :: d) (after l c) f)) in R.
  destruct (g_block _ _ _ G _ Bl) as (Cl & Cb & Bp & Last).
  assert (Ct : closer t = true /\ is_end_of_line (ty t) = false /\ ty t <> T_Pipe /\ ty t <> T_PipePipe) by (unfold closer; destruct Ty as [[_ T]|[_ T]]; rewrite T; repeat split; discriminate).
  destruct Ct as (Ct & Lt & Nt1 & Nt2).
  pose proof (body_hd _ b t (u :: r) Hb1 Hb2) as Bh. cbv zeta in Bh.
  destruct (iter_head_ok v p o (body_text text b ++ t :: u :: r) (rev (text c) ++ a) (q :: ps) d0 d (after l c) f Cb Bp Cl Hp ltac:(clear - Hm; lia)
    ltac:(intros X; apply Sk; rewrite X, orb_true_r; reflexivity)) as (vs & Svs & V).
  { intros X. rewrite X in Bh. destruct Bh as [B|[B|[B|B]]]; [discriminate B|discriminate B|discriminate B|congruence]. }
  { intros X. rewrite X in Bh. destruct Bh as [B|[B|[B|B]]]; [discriminate B|discriminate B|discriminate B|congruence]. }
  destruct (body_ok m IH (Some (rescue_in_body E F)) (fun x => ttype_eqb x (ty t)) b t (rev (params_text text p) ++ o :: rev (text c) ++ a) (u :: r) (q :: ps) (d0 :: d) (params_after after (after l c) p) f
    (eqb_same (ty t)) Ct Lt) as (t0 & ws & Gs & W).
  { destruct Ty as [[_ T]|[_ T]]; rewrite T; (split; [reflexivity|split; [reflexivity|]]); intros x Sx; apply starts_not; (reflexivity || exact Sx). }
  { clear - Hm. lia. } { exact Hb1. } { exact Hb2. }
  exists (N_Iter o v (match p with F_none => false | _ => true end) vs (t0, ws)), (S j). split; [|split].
  - apply good_ordinary; try reflexivity.
    + cbn [meaning].
      replace (match p with F_none => SInt 0 | _ => params_meaning after meaning (after l c) p end)
        with (if match p with F_none => false | _ => true end then sx "args" (pmeaning (after l c) p) else SInt 0) by (destruct p; reflexivity).
      apply stands_iter; [exact (g_stands _ _ _ G)|exact Svs|exact (goods_stands fst _ _ _ Gs)].
    + symmetry. apply integer_tag. reflexivity.
  - cbn [text]. rewrite app_length. cbn [length]. clear - Hj. lia.
  - cbn [text after]. rewrite rev_app_distr. cbn [rev]. rewrite <- !app_assoc. cbn [app]. rewrite <- !app_assoc. cbn [app] in R |- *.
    refine (reach_round m q ia j _ v _ o _ (q :: ps) (d0 :: d) _ f (parse_iter_expression E F) _ _ _ ps q (d0 :: d) _ f R Vo _ _ _).
    + unfold higher_precedence, get_precedence. rewrite (plain_key v (g_plain _ _ _ G)). destruct Ty as [[T _]|[T _]]; rewrite T.
      * change (ITER_CURLY =? ITER_BLOCK) with false. change (ITER_CURLY =? ITER_CURLY) with true. cbv beta iota zeta. rewrite Cl.
        pose proof (f_ia _ _ _ _ _ _ K) as I. destruct ia; [contradiction|reflexivity|reflexivity].
      * change (ITER_BLOCK =? ITER_BLOCK) with true. cbv beta iota zeta.
        destruct Sk as [Sd Si]; [unfold is_a; rewrite T; reflexivity|]. subst. reflexivity.
    + unfold left_denotation. destruct Ty as [[T _]|[T _]]; rewrite T; reflexivity.
    + unfold parse_iter_expression. run1. run1. cbv zeta.
      assert (Bad : ttype_eqb (ty o) T_LCurlyBrace && match v with N_Call _ _ _ (_ :: _) => negb (ttype_eqb (ty (hd no_token (rev (text c) ++ a))) T_RParen) | _ => false end = false).
      { destruct (ttype_eqb (ty o) T_LCurlyBrace) eqn:Eo; [|reflexivity]. cbn [andb]. specialize (Last Eo).
rewrite hd_last. destruct v; try reflexivity. match goal with |- match ?z with _ => _ end = _ => destruct z; [reflexivity|] end. rewrite Last. reflexivity. }
      rewrite Bad. clear Bad. run1. unfold with_locals. run1. run1. rewrite !bind_assoc. rewrite (bind_ok _ _ _ _ _ V). cbn [fst snd].
      unfold parse_iter_body, parse_body_rescue_to, parse_body_rescue.
      replace (if ttype_eqb (ty o) T_LCurlyBrace then T_RCurlyBrace else T_EndKeyword) with (ty t) by (destruct Ty as [[T1 T2]|[T1 T2]]; rewrite T1, T2; reflexivity).
      rewrite !bind_assoc. rewrite (bind_ok _ _ _ _ _ W).
      destruct Ty as [[T1 T2]|[T1 T2]]; run; rewrite !rev_app_distr; cbn [rev app]; rewrite <- !app_assoc; reflexivity.
Qed.
End Params.

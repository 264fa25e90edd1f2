(** * RubyRescue: [begin] with [rescue] and [ensure], and [for]

    [Spine] for these programs of SpecRuby.  No code is modelled here. *)
From Coq Require Import Strings.String NArith ZArith Bool List Lia.
From Verif Require Import Base Token Node ParserBase ParserModel Sexp SpecRuby RubyTransform RubyNodes RubyBase RubyRun RubyBody RubyExpr RubyOps RubyForms RubyArgs RubyCalls RubyBlock RubyCompound RubyDef.
Import ListNotations.
Open Scope N_scope.
Open Scope list_scope.

(** ** What they are transformed to *)
Lemma body_some bt l ms : Forall2 stands l ms ->
  exists ss, block ms = map bare ss /\ forall c, c_assignment c = false ->
    (match l with [] => tdone | k => append_body bt (appends k) end) c = pushes ss c.
Proof.
  intros H. destruct l as [|x l].
  - inversion H. exists []. split; [reflexivity|]. intros [? ? ? ? i] _. unfold tdone, pushes. cbn. rewrite app_nil_r. reflexivity.
  - destruct (body_pushes bt _ _ H) as (s & E & K); [discriminate|]. exists [s]. rewrite E. split; [reflexivity|exact K].
Qed.
Lemma tr_begin t bt b rs e n : transform (N_Begin t (bt, b) rs e n) =
  (set_type "rescue" >> (match b with [] => tdone | l => append_body bt (appends l) end) >> append_all (appends rs) >>
   (match e with Some (bt, l) => match l with [] => tdone | l => append_body bt (appends l) end | None => tdone end) >>
   (match n with
    | None => tdone
    | Some (bt, l) =>
        (match rs with [] => set_type "ensure" | _ => wrap "ensure" end) >>
        (match l with [] => append_nil_sexp | l => append_body bt (appends l) end)
    end)).
Proof.
  intros. rewrite <- !each_map. destruct b, e as [[? [|? ?]]|], n as [[? [|? ?]]|]; rewrite <- ?each_map; reflexivity.
Qed.
Definition body_stands (b : option (token * list node)) (mb : option (list sexp)) : Prop :=
  match b, mb with Some (_, l), Some ms => Forall2 stands l ms | None, None => True | _, _ => False end.
Lemma stands_begin t bt b rs e n mb mr me mn : Forall2 stands b mb -> Forall2 stands rs mr ->
  body_stands e me -> body_stands n mn ->
  stands (N_Begin t (bt, b) rs e n) (begin_meaning mb mr match me with Some x => x | None => [] end mn).
Proof.
  intros B R Se Sn. assert (Rn : rs = [] <-> mr = []) by (destruct R; split; congruence).
  destruct (body_some bt b mb B) as (sb & Eb & Kb). clear B.
  assert (X : exists ss, block match me with Some x => x | None => [] end = map bare ss /\ forall c, c_assignment c = false ->
    (match e with Some (bt, l) => match l with [] => tdone | l => append_body bt (appends l) end | None => tdone end) c = pushes ss c).
  { destruct e as [[b1 e]|], me as [me|]; try contradiction Se; [exact (body_some b1 e me Se)|exact (body_some bt [] [] (Forall2_nil _))]. }
  destruct X as (se & Ee & Ke). clear Se. unfold begin_meaning. rewrite Eb, Ee. clear Eb Ee. apply all_pushes in R as (s & E & K).
  destruct n as [[bn n]|], mn as [mn|]; try contradiction Sn.
  - assert (Y : exists s, bare s = match block mn with [v] => v | _ => sx "nil" [] end /\ forall c, c_assignment c = false ->
      exists s', bare s' = bare s /\ (match n with [] => append_nil_sexp | l => append_body bn (appends l) end) c = push s' c).
    { destruct n as [|x n].
      - inversion Sn. exists (sx "nil" []). split; [reflexivity|]. intros c _. eexists. split; [|reflexivity]. reflexivity.
      - destruct (body_pushes bn _ _ Sn) as (s1 & E1 & K1); [discriminate|]. exists s1. rewrite E1. split; [reflexivity|]. intros c C. exists s1. split; [reflexivity|]. apply K1. exact C. }
    destruct Y as (sn & En & Kn). clear Sn. rewrite <- En. clear En.
    destruct mr as [|v mr].
    + assert (rs = []) as -> by (apply Rn; reflexivity).
      assert (s = []) as -> by (destruct s; [reflexivity|discriminate]).
      destruct (Kn (Creator false (tk_line t) (tk_col t) None (SSym (s2l "ensure") :: (sb ++ [] ++ se))) eq_refl) as (s' & Es & Ks).
      eapply stands_intro; [discriminate|eexists; split; [rewrite tr_begin; go2; rewrite ?app_nil_r; cbn [app] in Ks|reflexivity]|].
      * etransitivity; [exact Ks|]. cbn [push c_assignment c_line c_col c_comments c_items]. reflexivity.
      * unfold c_sexp. cbn [c_line c_col c_comments c_items app]. rewrite sx_flat by reflexivity. rewrite !map_app. cbn [map]. rewrite Es. reflexivity.
    + destruct rs as [|x rs]; [exfalso; destruct Rn as [Rn _]; discriminate (Rn eq_refl)|].
      destruct (Kn (Creator false (tk_line t) (tk_col t) None [SSym (s2l "ensure"); Sexp (tk_line t + 1) (tk_col t + 1) None (SSym (s2l "rescue") :: (sb ++ s) ++ se)]) eq_refl) as (s' & Es & Ks).
      eapply stands_intro; [discriminate|eexists; split; [rewrite tr_begin; go2|reflexivity]|].
      * unfold wrap, c_sexp. cbn [c_assignment c_line c_col c_comments c_items app]. etransitivity; [exact Ks|]. cbn [push c_assignment c_line c_col c_comments c_items]. reflexivity.
      * unfold c_sexp. cbn [c_line c_col c_comments c_items app]. rewrite sx_flat by reflexivity. cbn [map]. rewrite sx_flat by reflexivity.
        rewrite !map_app, Es, E, <- app_assoc. reflexivity.
  - eapply stands_intro; [discriminate|eexists; split; [rewrite tr_begin; go2; reflexivity|reflexivity]|].
    unfold c_sexp. cbn [c_line c_col c_comments c_items app]. rewrite sx_flat by reflexivity. rewrite !map_app, E, <- app_assoc. reflexivity.
Qed.

Lemma tr_resbody t n es bt b : transform (N_BeginRescue t n es (bt, b)) =
  (set_type "resbody" >>
   append_sub t
     (set_type "array" >> append_all (appends es) >>
      match n with
      | None => tdone
      | Some id =>
          append_sub t
            (transform_assignment id (transform id) (append_sub (error_info_token t) (transform_identifier (error_info_token t) false)))
      end) >>
   (match b with [] => append_nil | l => append_all (appends l) end)).
Proof. intros. rewrite <- !each_map. destruct b, n; reflexivity. Qed.
Lemma stands_resbody t n es bt b me mn mb : Forall2 stands es me -> Forall2 stands b mb ->
  match n, mn with
  | Some v, Some it => is_variable (ty it) = true /\ lit it = Some (name it) /\ exists lv, v = N_Identifier it lv
  | None, None => True
  | _, _ => False
  end ->
  stands (N_BeginRescue t n es (bt, b))
    (sx "resbody" (sx "array" (me ++ match mn with Some it => [assign it (sx "gvar" [SSym (s2l "$!")])] | None => [] end) :: when_body mb)).
Proof.
  intros Es B N.
  assert (X : exists sn, match mn with Some it => [assign it (sx "gvar" [SSym (s2l "$!")])] | None => [] end = map bare sn /\
    forall c, c_assignment c = false ->
      (match n with
      | None => tdone
      | Some id =>
          append_sub t
            (transform_assignment id (transform id) (append_sub (error_info_token t) (transform_identifier (error_info_token t) false)))
      end) c = pushes sn c).
  { destruct n as [v|], mn as [it|]; try contradiction N.
    - destruct N as (V & L & lv & ->).
      set (g := append_sub (error_info_token t) (transform_identifier (error_info_token t) false)).
      assert (Kg : exists s, bare s = sx "gvar" [SSym (s2l "$!")] /\ forall c, c_assignment c = false -> g c = push s c).
      { eexists. split; [|intros c C; unfold g, append_sub; rewrite C; reflexivity]. reflexivity. }
      destruct Kg as (s & Eg & Kg).
      destruct (assign_sexp it lv g s V L Kg (new_creator t false) eq_refl) as (tag & A & T & D).
      eexists [_]. rewrite <- Eg, A. split; [|intros c C; unfold append_sub; rewrite C, T; reflexivity].
      unfold sx. cbn. f_equal. clear - D. tags D.
    - exists []. split; [reflexivity|]. intros [? ? ? ? i] _. unfold tdone, pushes. cbn. rewrite app_nil_r. reflexivity. }
  destruct X as (sn & En & Kn). clear N. rewrite En. clear En.
  assert (Y : exists sb, when_body mb = map bare sb /\ forall c, c_assignment c = false ->
    (match b with [] => append_nil | l => append_all (appends l) end) c = pushes sb c).
  { destruct B as [|x y b mb Hx B].
    - exists [SNil]. split; reflexivity.
    - pose proof (Forall2_cons _ _ Hx B) as F. clear Hx B. apply all_pushes in F as (s & E & K). exists s. split; [|exact K]. cbn [when_body]. congruence. }
  destruct Y as (sb & Eb & Kb). clear B. rewrite Eb. clear Eb. apply all_pushes in Es as (s & E & K).
  eapply stands_intro; [discriminate|eexists; split; [rewrite tr_resbody|reflexivity]|].
  - unfold tseq at 1. unfold set_type at 1. unfold new_creator at 1. cbn [ntoken c_assignment c_line c_col c_comments c_items].
    unfold tseq at 1. unfold append_sub at 1. cbn [c_assignment]. go2. reflexivity.
  - unfold c_sexp. cbn [c_line c_col c_comments c_items app]. rewrite sx_flat by reflexivity. cbn [map]. rewrite sx_flat by reflexivity.
    rewrite map_app. congruence.
Qed.

Lemma tr_for t e v bt b : transform (N_For t e v (bt, b)) =
  (set_type "for" >> append_node e (transform e) >> with_assignment true (append_node v (transform v)) >>
   (match b with [] => tdone | l => append_body bt (appends l) end)).
Proof. intros. rewrite <- !each_map. destruct b; reflexivity. Qed.
Lemma stands_for t e it lv bt b me mb : stands e me -> Forall2 stands b mb -> is_variable (ty it) = true -> lit it = Some (name it) ->
  stands (N_For t e (N_Identifier it lv) (bt, b)) (sx "for" (me :: declare it :: block mb)).
Proof.
  intros Se B V L. destruct (body_some bt b mb B) as (sb & Eb & Kb). clear B.
  assert (X : exists s, declare it = bare s /\ forall c, c_assignment c = false ->
    with_assignment true (append_node (N_Identifier it lv) (transform (N_Identifier it lv))) c = push s c).
  { unfold declare, assign, with_assignment, append_node. destruct (ty it) eqn:Ty; try discriminate V;
      (eexists; split; [|intros c C; unfold append_sub; cbn [ntoken c_assignment]; rewrite tr_ident; unfold transform_identifier, if_assignment; cbn [c_assignment new_creator];
         unfold transform_identifier_assignment; rewrite Ty; unfold tseq, append_symbol_ptr; rewrite L; unfold push; rewrite C; reflexivity]; reflexivity). }
  destruct X as (s & Ei & Ki). rewrite Ei, Eb. clear Ei Eb. destruct Se as (se & E & K).
  eapply stands_intro; [discriminate|eexists; split; [rewrite tr_for; unfold tseq at 1, set_type, new_creator; cbn [ntoken c_assignment c_line c_col c_comments c_items]|reflexivity]|].
  - unfold tseq at 1. rewrite K by reflexivity. cbn [push c_assignment c_line c_col c_comments c_items]. unfold tseq. rewrite Ki by reflexivity.
    cbn [push c_assignment c_line c_col c_comments c_items]. rewrite Kb by reflexivity. unfold pushes. cbn [push c_assignment c_line c_col c_comments c_items]. reflexivity.
  - unfold c_sexp. cbn [c_line c_col c_comments c_items app]. rewrite sx_flat by reflexivity. cbn [map]. congruence.
Qed.

(** ** Parsing them *)
Lemma rescue_end c : is_end_of_rescue (ty c) = true -> sound (ty c) = true /\ is_end_of_line (ty c) = false.
Proof. unfold sound. destruct (ty c); try discriminate; split; reflexivity. Qed.
Lemma ends_rescue : ends is_end_of_rescue.
Proof. split; [reflexivity|]. split; [reflexivity|]. intros t. destruct t; (reflexivity || discriminate). Qed.
Lemma ends_else : ends is_end_of_else.
Proof. split; [reflexivity|]. split; [reflexivity|]. intros t. destruct t; (reflexivity || discriminate). Qed.
Lemma else_rescue t : is_end_of_else t = true -> is_end_of_rescue t = true.
Proof. destruct t; (reflexivity || discriminate). Qed.
Lemma run_assigned {A} n lv (k : unit -> M A) a r ps d l f : is_variable (ty n) = true -> named n = true ->
  bind (add_assignment_locals (N_Identifier n lv)) k (PState a r ps d l f) = k tt (PState a r ps d (assigned l n) f).
Proof.
  intros V Nn. destruct (named_ok n Nn) as [Ln Cn]. unfold add_assignment_locals, identifier_add_to_locals, assigned.
  destruct (ty n); try discriminate V; try reflexivity. unfold literal_string. rewrite Ln.
  change (bind _ k ?s) with (k tt (PState a r ps d (cstr (name n) :: l) f)). rewrite Cn. reflexivity.
Qed.
Lemma separated_some s : separated s = true -> exists x y, s = x :: y /\ separator x = true /\ forallb separator (x :: y) = true.
Proof. destruct s as [|x y]; [discriminate|]. cbn [separated]. intros H. exists x, y. split; [reflexivity|]. split; [|exact H]. cbn [forallb] in H. apply andb_true_iff in H as [H _]. exact H. Qed.

Section Rescue.
Variable m : nat.
Hypothesis IH : Main m.
Notation E := (parse_expression m).
Notation F := (m + m + 2)%nat.

(** *** Clauses *)
Lemma exceptions_loop : forall xs n acc z a r ps d0 d l f, forallb (fun y => is_a T_Comma (fst y)) xs = true -> tests_ok l xs = true ->
  (existsb (fun y => shallow (snd y)) xs = true -> d0 = 0) -> (length (tail_text text xs) <= m)%nat -> (length xs < n)%nat ->
  stopper BARE_CALL_ARG d0 z -> ty z <> T_Comma ->
  exists vs, goods snd l xs vs /\
    mloop n (fun acc => b <- cur_is T_Comma ;; if b then advance ;;; n <- pexpr E BARE_CALL_ARG ;; ret (inl (acc ++ [n])) else ret (inr acc)) acc
      (PState a (tail_text text xs ++ z :: r) ps (d0 :: d) l f) =
    POk (acc ++ vs) (PState (rev (tail_text text xs) ++ a) (z :: r) ps (d0 :: d) (tests_after after l xs) f).
Proof.
  induction xs as [|[k e] xs IHx]; intros n acc z a r ps d0 d l f Hk Hf Hs Hm Hn Sz Cz; (destruct n as [|n]; [exfalso; clear - Hn; cbn in Hn; lia|]).
  - exists []. split; [exact I|]. rewrite app_nil_r. cbn [tail_text flat_map app rev]. apply loop_done. run1.
    rewrite (eqb_diff (ty z) T_Comma) by exact Cz. reflexivity.
  - cbn [fst forallb] in Hk. apply andb_true_iff in Hk as [Tk Hk]. apply is_a_ty in Tk. unfold tests_ok in Hf. cbn [map_all forallb snd] in Hf.
    apply andb_true_iff in Hf as [Hf1 Hf2]. cbn [existsb snd] in Hs. unfold tail_text in *. cbn [flat_map fst snd length app] in *. fold (tail_text text xs) in *.
    rewrite app_length in Hm. cbn [length] in Hn.
    assert (Ez : exists u w, tail_text text xs ++ z :: r = u :: w /\ stopper BARE_CALL_ARG d0 u).
    { destruct xs as [|[k2 e2] xs]; cbn [tail_text flat_map app fst].
      - eexists; eexists. split; [reflexivity|]. exact Sz.
      - cbn [fst forallb] in Hk. apply andb_true_iff in Hk as [Tk2 _]. apply is_a_ty in Tk2.
        eexists; eexists. split; [reflexivity|]. apply comma_stopper; [reflexivity|exact Tk2]. }
    destruct Ez as (u & w & Ez & Su).
    destruct (argument_ok m IH e u BARE_CALL_ARG w (k :: a) ps d0 d l f Hf1 ltac:(clear - Hm; lia) eq_refl Su ltac:(intros X; apply Hs; rewrite X; reflexivity)) as (v & G & V).
    destruct (IHx n (acc ++ [v]) z (rev (text e) ++ k :: a) r ps d0 d (after l e) f Hk Hf2 ltac:(intros X; apply Hs; rewrite X, orb_true_r; reflexivity) ltac:(clear - Hm; lia) ltac:(clear - Hn; lia) Sz Cz) as (vs & Gs & R).
    exists (v :: vs). split; [split; assumption|]. rewrite <- app_assoc.
    etransitivity; [apply loop_step|].
    { run. rewrite Ez. rewrite (bind_ok _ _ _ _ _ V). rewrite <- Ez. reflexivity. }
    etransitivity; [exact R|]. rewrite <- app_assoc. cbn [app rev tests_after after_all snd]. rewrite rev_app_distr, <- !app_assoc. reflexivity.
Qed.
Lemma tail_count xs : (length xs <= length (tail_text text xs))%nat.
Proof. induction xs as [|x xs IHx]; [cbn; lia|]. unfold tail_text in *. cbn [flat_map length app]. rewrite app_length. lia. Qed.

Definition exceptions_text (es : option (rb * list (token * rb))) : list token :=
  match es with Some (e, xs) => text e ++ tail_text text xs | None => [] end.
Definition exceptions_fit (l : list str) (es : option (rb * list (token * rb))) : bool :=
  match es with Some (e, xs) => as_argument fits l e && forallb (fun y => is_a T_Comma (fst y)) xs && tests_ok (after l e) xs | None => true end.
Lemma exceptions_ok es z a r ps d0 d l f : exceptions_fit l es = true ->
  (match es with Some (e, xs) => shallow e || existsb (fun y => shallow (snd y)) xs | None => false end = true -> d0 = 0) ->
  (length (exceptions_text es) < m)%nat -> (separator z = true \/ ty z = T_HashRocket) ->
  exists vs, Forall2 stands vs (exceptions_meaning after meaning l es) /\
    (c <- cty ;;
     if negb (is_end_of_line c) && negb (ttype_eqb c T_HashRocket) then
       n <- pexpr E BARE_CALL_ARG ;; comma_items F (pexpr E BARE_CALL_ARG) [n]
     else ret []) (PState a (exceptions_text es ++ z :: r) ps (d0 :: d) l f) =
    POk vs (PState (rev (exceptions_text es) ++ a) (z :: r) ps (d0 :: d) (exceptions_after after l es) f).
Proof.
  intros Hf Hs Hm Z.
  destruct es as [[e xs]|]; cbn [exceptions_text exceptions_fit exceptions_after exceptions_meaning] in *.
  - apply andb_true_iff in Hf as [Hf Hf2]. apply andb_true_iff in Hf as [Hf1 Hk]. rewrite app_length in Hm. pose proof (tail_count xs) as Ct.
    assert (Sz : stopper BARE_CALL_ARG d0 z /\ ty z <> T_Comma).
    { destruct Z as [Z|Z].
      - apply separator_closer in Z. split; [apply closer_stopper; exact Z|]. intros H; eapply closer_not; [exact Z| |exact H]; reflexivity.
      - split; [apply rocket_stopper; exact Z|]. rewrite Z. discriminate. }
    destruct Sz as [Sz Cz].
    assert (Ez : exists u w, tail_text text xs ++ z :: r = u :: w /\ stopper BARE_CALL_ARG d0 u).
    { destruct xs as [|[k2 e2] xs]; cbn [tail_text flat_map app fst].
      - eexists; eexists. split; [reflexivity|]. exact Sz.
      - cbn [fst forallb] in Hk. apply andb_true_iff in Hk as [Tk2 _]. apply is_a_ty in Tk2.
        eexists; eexists. split; [reflexivity|]. apply comma_stopper; [reflexivity|exact Tk2]. }
    destruct Ez as (u & w & Ez & Su).
    destruct (argument_ok m IH e u BARE_CALL_ARG w a ps d0 d l f Hf1 ltac:(clear - Hm; lia) eq_refl Su ltac:(intros X; apply Hs; rewrite X; reflexivity)) as (v & G & V).
    destruct (exceptions_loop xs F [v] z (rev (text e) ++ a) r ps d0 d (after l e) f Hk Hf2 ltac:(intros X; apply Hs; rewrite X, orb_true_r; reflexivity)
      ltac:(clear - Hm; lia) ltac:(clear - Hm Ct; lia) Sz Cz) as (vs & Gs & R).
    exists (v :: vs). split; [constructor; [exact (g_stands _ _ _ G)|exact (goods_stands snd _ _ _ Gs)]|].
    assert (Fe : fits l e = true) by (unfold as_argument in Hf1; ands; assumption). pose proof (starts_head l e Fe) as St.
    rewrite <- app_assoc. run1. rewrite (starts_line _ St), (starts_not T_HashRocket _ eq_refl St). cbn [negb andb].
    rewrite Ez. rewrite (bind_ok _ _ _ _ _ V). rewrite <- Ez. unfold comma_items. etransitivity; [exact R|]. rewrite rev_app_distr, <- app_assoc. reflexivity.
  - exists []. split; [constructor|]. cbn [app rev]. run1.
    destruct Z as [Z|Z]; [rewrite (proj1 (separator_end z Z))|rewrite Z]; reflexivity.
Qed.

Definition naming_text (n : option (token * token)) : list token := match n with Some (t, n) => [t; n] | None => [] end.
Definition naming_fits (n : option (token * token)) : bool :=
  match n with Some (t, n) => is_a T_HashRocket t && is_variable (ty n) && named n | None => true end.
Lemma naming_ok n z a r ps d0 d l f : naming_fits n = true -> separator z = true -> (2 <= m)%nat ->
  exists v, match v, match n with Some (_, n) => Some n | None => None end with
    | Some v, Some it => is_variable (ty it) = true /\ lit it = Some (name it) /\ exists lv, v = N_Identifier it lv
    | None, None => True | _, _ => False end /\
    (h <- cur_is T_HashRocket ;;
     (if h then advance ;;; n <- pexpr E ASSIGNMENT_LHS ;; add_assignment_locals n ;;; ret (Some n) else ret None))
      (PState a (naming_text n ++ z :: r) ps (d0 :: d) l f) =
    POk v (PState (rev (naming_text n) ++ a) (z :: r) ps (d0 :: d) (naming_after l n) f).
Proof.
  intros Hf Z Hm. pose proof (separator_closer z Z) as Cz. destruct n as [[t n]|]; cbn [naming_text naming_fits naming_after] in *.
  - apply andb_true_iff in Hf as [Hf Nn]. apply andb_true_iff in Hf as [Tt Vn]. apply is_a_ty in Tt. destruct (named_ok n Nn) as [Ln _].
    destruct (inner m IH (R_leaf n) z ASSIGNMENT_LHS r (t :: a) ps d0 d l f) as (v & G & V).
    { cbn [fits]. unfold is_leaf. rewrite Vn. destruct (ty n); try discriminate Vn; exact Nn. } { cbn [text length]. lia. } { reflexivity. }
    { apply closer_okf. exact Cz. } { rewrite closer_level by exact Cz. apply N.le_0_l. } { rewrite closer_level by exact Cz. apply N.le_0_l. } { discriminate. }
    { apply closer_not; [exact Cz|reflexivity]. } { apply closer_not; [exact Cz|reflexivity]. } { apply closer_not; [exact Cz|reflexivity]. } { discriminate. }
    pose proof (g_leaf _ _ _ G Vn) as Ev. subst v. cbn [text app] in V.
    exists (Some (N_Identifier n (bound l (name n)))). split; [eauto|]. cbn [app rev].
    run. rewrite (bind_ok _ _ _ _ _ V). cbn [after]. rewrite run_assigned by assumption. reflexivity.
  - exists None. split; [exact I|]. cbn [app rev]. run1. rewrite (eqb_diff (ty z) T_HashRocket) by (apply closer_not; [exact Cz|reflexivity]). reflexivity.
Qed.

Lemma rescue_body strict is_end b c a r ps d l f : is_end (ty c) = true -> is_end_of_rescue (ty c) = true -> (strict = false -> closer c = true) -> ends is_end ->
  body_fits after fits separated strict returns l b = true -> (length (body_text text b) < m)%nat ->
  exists t0 vs, goods fst l (snd b) vs /\ forall A (k : token * list node -> M A),
    bind next_expression (fun _ => bind (body_with E F None LOWEST is_end) k) (PState a (body_text text b ++ c :: r) ps d l f) =
    k (t0, vs) (PState (rev (body_text text b) ++ a) (c :: r) ps d (body_after after l b) f).
Proof.
  intros Ec Rc Cc Ee Hf Hm. destruct (rescue_end c Rc) as [Sc Lc]. unfold body_fits in Hf. apply andb_true_iff in Hf as [Hb1 Hb2].
  destruct b as [s xs]. cbn [fst snd] in *. destruct (separated_some s Hb1) as (x & y & -> & Sx & Sy).
  rewrite body_text_eq in *. cbn [fst snd] in *. rewrite app_length in Hm. cbn [length] in Hm.
  destruct (body_general m IH None strict is_end ([], xs) c (rev (x :: y) ++ a) r ps d l f Ec Sc Cc Lc Ee
    ltac:(rewrite body_text_eq; cbn [fst snd app]; clear - Hm; lia) eq_refl Hb2) as (t0 & vs & G & V).
  rewrite body_text_eq in V. cbn [fst snd app] in V. exists t0, vs. split; [exact G|]. intros A k.
  rewrite <- app_assoc. cbn [app]. rewrite run_next; [|exact Sy|eapply stm_line; eassumption].
  rewrite (bind_ok _ _ _ _ _ V). rewrite app_comm_cons, rev_app_distr, <- app_assoc. reflexivity.
Qed.

Lemma clause_ok x c a r ps d0 d l f : is_end_of_rescue (ty c) = true -> clause_fits after fits (as_argument fits) returns l x = true ->
  (clause_shallow shallow x = true -> d0 = 0) -> (length (clause_text text x) <= m)%nat ->
  exists v, stands v (clause_meaning after meaning l x) /\
    parse_rescue_clause E F (PState a (clause_text text x ++ c :: r) ps (d0 :: d) l f) =
    POk v (PState (rev (clause_text text x) ++ a) (c :: r) ps (d0 :: d) (clause_after after l x) f).
Proof.
  intros Ec Hf Hs Hm. destruct x as [k es n b]. cbn [clause_fits clause_text clause_after clause_meaning clause_shallow] in *.
  fold (exceptions_text es) in *. fold (naming_text n) in *. fold (naming_fits n) in Hf.
  apply andb_true_iff in Hf as [Hf Fb]. apply andb_true_iff in Hf as [Hf Fn]. apply andb_true_iff in Hf as [Tk Fe].
  assert (Fe' : exceptions_fit l es = true) by exact Fe. clear Fe.
  cbn [length] in Hm. rewrite !app_length in Hm.
  assert (Sb : separated (fst b) = true) by (unfold body_fits in Fb; ands; assumption).
  assert (Eb : exists x y, body_text text b ++ c :: r = x :: y /\ separator x = true).
  { destruct (separated_some _ Sb) as (x & y & Ex & Sx & _). rewrite body_text_eq, Ex. eexists; eexists; split; [reflexivity|exact Sx]. }
  destruct Eb as (x & y & Eb & Sx).
  assert (Lb : (1 <= length (body_text text b))%nat) by (rewrite body_text_eq, app_length; destruct (fst b); [discriminate Sb|cbn [length]; lia]).
  assert (Ez : exists z w, naming_text n ++ body_text text b ++ c :: r = z :: w /\ (separator z = true \/ ty z = T_HashRocket)).
  { destruct n as [[t n]|]; cbn [naming_text app].
    - eexists; eexists. split; [reflexivity|]. right. cbn [naming_fits] in Fn. ands. apply is_a_ty. assumption.
    - rewrite Eb. eexists; eexists. split; [reflexivity|]. left. exact Sx. }
  destruct Ez as (z & w & Ez & Sz).
  destruct (exceptions_ok es z (k :: a) w ps d0 d l f Fe') as (vs & Svs & V1); [| |exact Sz|].
  { destruct es as [[e xs]|]; [exact Hs|discriminate]. } { clear - Hm Lb. lia. }
  destruct (naming_ok n x (rev (exceptions_text es) ++ k :: a) y ps d0 d (exceptions_after after l es) f Fn Sx) as (vn & Svn & V2); [clear - Hm Lb; lia|].
  destruct (rescue_body true is_end_of_rescue b c (rev (naming_text n) ++ rev (exceptions_text es) ++ k :: a) r ps (d0 :: d) (naming_after (exceptions_after after l es) n) f
    Ec Ec ltac:(discriminate) ends_rescue Fb) as (t0 & ws & Gw & V3); [clear - Hm; lia|].
  exists (N_BeginRescue k vn vs (t0, ws)). split.
  - replace (match n with Some (_, n0) => [assign n0 (sx "gvar" [SSym (s2l "$!")])] | None => [] end)
      with (match match n with Some (_, n) => Some n | None => None end with Some it => [assign it (sx "gvar" [SSym (s2l "$!")])] | None => [] end)
      by (destruct n as [[? ?]|]; reflexivity).
    apply stands_resbody; [exact Svs|exact (goods_stands fst _ _ _ Gw)|exact Svn].
  - unfold parse_rescue_clause. cbn [app]. rewrite <- !app_assoc. run1. run1.
    rewrite Ez. rewrite <- bind_assoc. rewrite (bind_ok _ _ _ _ _ V1). rewrite <- Ez, Eb.
    rewrite <- bind_assoc. rewrite (bind_ok _ _ _ _ _ V2). rewrite <- Eb. unfold parse_body_until. rewrite V3.
    run1. rewrite Ec. cbn [negb rev]. rewrite !rev_app_distr, <- !app_assoc. reflexivity.
Qed.

(** *** The rest of [begin] *)
Definition begin_round (t : token) (body : token * list node) (acc : list node * option (token * list node) * option (token * list node)) :=
       let '(rescues, els, ens) := acc in
       c <- cty ;;
       if is_eof c || ttype_eqb c T_EndKeyword then
         expect T_EndKeyword "begin/rescue/ensure end" ;;;
         advance ;;;
         ret (inr (N_Begin t body rescues els ens))
       else
         match c with
         | T_RescueKeyword =>
             r <- parse_rescue_clause E F ;;
             ret (inl (rescues ++ [r], els, ens))
         | T_ElseKeyword =>
             advance ;;;
             next_expression ;;;
             b <- parse_body_until E F is_end_of_else ;;
             c <- cty ;;
             if negb (is_end_of_else c) then unexpected "begin: ensure or end"
             else ret (inl (rescues, Some b, ens))
         | T_EnsureKeyword =>
             advance ;;;
             next_expression ;;;
             b <- parse_body_to E F T_EndKeyword ;;
             ret (inl (rescues, els, Some b))
         | _ => unexpected "begin end"
         end.
Definition clauses_fit (l : list str) (cs : list (clause rb)) : bool :=
  forallb (fun b => b) (map_all (clause_after after) (clause_fits after fits (as_argument fits) returns) l cs).
Lemma clause_first l x : clause_fits after fits (as_argument fits) returns l x = true -> exists k w, clause_text text x = k :: w /\ ty k = T_RescueKeyword.
Proof.
  destruct x as [k es n b]. cbn [clause_fits clause_text]. intros H. ands. eexists; eexists. split; [reflexivity|]. apply is_a_ty. assumption.
Qed.
Lemma clauses_count cs l : clauses_fit l cs = true -> (length cs <= length (flat_map (clause_text text) cs))%nat.
Proof.
  revert l. induction cs as [|x cs IHc]; intros l H; [cbn; lia|]. unfold clauses_fit in H. cbn [map_all forallb] in H. apply andb_true_iff in H as [H1 H2].
  specialize (IHc _ H2). destruct (clause_first _ _ H1) as (k & w & Ek & _). cbn [flat_map]. rewrite Ek. cbn [length app]. rewrite app_length. lia.
Qed.
Lemma clauses_first cs c r l : clauses_fit l cs = true -> is_end_of_rescue (ty c) = true ->
  exists u w, flat_map (clause_text text) cs ++ c :: r = u :: w /\ is_end_of_rescue (ty u) = true.
Proof.
  intros H Ec. destruct cs as [|x cs]; [eexists; eexists; split; [reflexivity|exact Ec]|].
  unfold clauses_fit in H. cbn [map_all forallb] in H. apply andb_true_iff in H as [H _]. destruct (clause_first _ _ H) as (k & w & Ek & Tk).
  cbn [flat_map]. rewrite Ek. eexists; eexists. split; [reflexivity|]. rewrite Tk. reflexivity.
Qed.
Lemma clauses_loop t b : forall cs j nodes c a r ps d0 d l f, is_end_of_rescue (ty c) = true -> clauses_fit l cs = true ->
  (existsb (clause_shallow shallow) cs = true -> d0 = 0) -> (length (flat_map (clause_text text) cs) <= m)%nat ->
  exists vs, Forall2 stands vs (map_all (clause_after after) (clause_meaning after meaning) l cs) /\
    mloop (length cs + j) (begin_round t b) (nodes, None, None) (PState a (flat_map (clause_text text) cs ++ c :: r) ps (d0 :: d) l f) =
    mloop j (begin_round t b) (nodes ++ vs, None, None) (PState (rev (flat_map (clause_text text) cs) ++ a) (c :: r) ps (d0 :: d) (after_all (clause_after after) l cs) f).
Proof.
  induction cs as [|x cs IHc]; intros j nodes c a r ps d0 d l f Ec Hf Hs Hm.
  - exists []. split; [constructor|]. rewrite app_nil_r. reflexivity.
  - unfold clauses_fit in Hf. cbn [map_all forallb] in Hf. apply andb_true_iff in Hf as [Hf1 Hf2]. cbn [existsb] in Hs. cbn [flat_map] in *. rewrite app_length in Hm.
    destruct (clauses_first cs c r _ Hf2 Ec) as (u & w & Ez & Eu).
    destruct (clause_first _ _ Hf1) as (k & q & Ek & Tk).
    destruct (clause_ok x u a w ps d0 d l f Eu Hf1 ltac:(intros X; apply Hs; rewrite X; reflexivity) ltac:(clear - Hm; lia)) as (v & Sv & V).
    destruct (IHc j (nodes ++ [v]) c (rev (clause_text text x) ++ a) r ps d0 d (clause_after after l x) f Ec Hf2 ltac:(intros X; apply Hs; rewrite X, orb_true_r; reflexivity) ltac:(clear - Hm; lia))
      as (vs & Svs & R).
    exists (v :: vs). split; [constructor; assumption|].
    cbn [length Nat.add]. etransitivity; [apply loop_step|].
    { rewrite <- app_assoc, Ez. unfold begin_round. rewrite Ek in V |- *. cbn [app] in V |- *. run1. rewrite Tk. change (is_eof T_RescueKeyword || ttype_eqb T_RescueKeyword T_EndKeyword) with false. cbv iota.
      rewrite (bind_ok _ _ _ _ _ V). rewrite <- Ek. reflexivity. }
    rewrite <- Ez. etransitivity; [exact R|]. rewrite <- app_assoc, (rev_app_distr _ (flat_map (clause_text text) cs)), <- app_assoc. reflexivity.
Qed.
Lemma else_loop t b rs e j c a r ps d l f : is_end_of_else (ty c) = true ->
  match e with Some (k, b) => is_a T_ElseKeyword k && body_fits after fits separated true returns l b | None => true end = true ->
  (length (else_text text e) <= m)%nat ->
  exists ve, body_stands ve (option_meaning after meaning l e) /\
    mloop (length (else_text text e) + j) (begin_round t b) (rs, None, None) (PState a (else_text text e ++ c :: r) ps d l f) =
    mloop (length (else_text text e) - match e with Some _ => 1 | None => 0 end + j) (begin_round t b) (rs, ve, None)
      (PState (rev (else_text text e) ++ a) (c :: r) ps d (else_after after l e) f).
Proof.
  intros Ec Hf Hm. destruct e as [[k b1]|]; [|exists None; split; [exact I|reflexivity]].
  cbn [else_text option_meaning else_after] in *. apply andb_true_iff in Hf as [Tk Fb]. apply is_a_ty in Tk. cbn [length] in Hm.
  destruct (rescue_body true is_end_of_else b1 c (k :: a) r ps d l f Ec (else_rescue _ Ec) ltac:(discriminate) ends_else Fb ltac:(clear - Hm; lia)) as (t0 & ws & Gw & V).
  exists (Some (t0, ws)). split; [exact (goods_stands fst _ _ _ Gw)|]. cbn [length Nat.add]. rewrite Nat.sub_succ, Nat.sub_0_r. etransitivity; [apply loop_step|reflexivity].
  unfold begin_round. cbn [app]. run1. rewrite Tk. change (is_eof T_ElseKeyword || ttype_eqb T_ElseKeyword T_EndKeyword) with false. cbv iota.
  run1. unfold parse_body_until. rewrite V. run1. rewrite Ec. cbn [negb rev]. rewrite <- app_assoc. reflexivity.
Qed.
Lemma ensure_loop t b rs ve e j c a r ps d l f : ty c = T_EndKeyword ->
  match e with Some (k, b) => is_a T_EnsureKeyword k && body_fits after fits separated false returns l b | None => true end = true ->
  (length (else_text text e) <= m)%nat ->
  exists vn, body_stands vn (option_meaning after meaning l e) /\
    mloop (length (else_text text e) + S j) (begin_round t b) (rs, ve, None) (PState a (else_text text e ++ c :: r) ps d l f) =
    POk (N_Begin t b rs ve vn) (PState (c :: rev (else_text text e) ++ a) r ps d (else_after after l e) f).
Proof.
  intros Ec Hf Hm.
  assert (Done : forall vn j a l, mloop (S j) (begin_round t b) (rs, ve, vn) (PState a (c :: r) ps d l f) = POk (N_Begin t b rs ve vn) (PState (c :: a) r ps d l f)).
  { intros vn j' a' l'. apply loop_done. unfold begin_round. run1. rewrite Ec. change (is_eof T_EndKeyword || ttype_eqb T_EndKeyword T_EndKeyword) with true. cbv iota. run. reflexivity. }
  destruct e as [[k b1]|].
  - cbn [else_text option_meaning else_after] in *. apply andb_true_iff in Hf as [Tk Fb]. apply is_a_ty in Tk. cbn [length] in Hm. destruct (end_closer c Ec) as [Cc Lc].
    destruct (rescue_body false (fun x => ttype_eqb x T_EndKeyword) b1 c (k :: a) r ps d l f ltac:(rewrite Ec; reflexivity) ltac:(rewrite Ec; reflexivity) ltac:(intros _; exact Cc) ends_end Fb ltac:(clear - Hm; lia)) as (t0 & ws & Gw & V).
    exists (Some (t0, ws)). split; [exact (goods_stands fst _ _ _ Gw)|]. cbn [length Nat.add]. etransitivity; [apply loop_step|].
    { unfold begin_round. cbn [app]. run1. rewrite Tk. change (is_eof T_EnsureKeyword || ttype_eqb T_EnsureKeyword T_EndKeyword) with false. cbv iota.
      run1. unfold parse_body_to. rewrite V. reflexivity. }
    rewrite Nat.add_succ_r, Done. cbn [rev]. rewrite <- app_assoc. reflexivity.
  - exists None. split; [exact I|]. cbn [else_text length Nat.add app rev else_after]. apply Done.
Qed.

Lemma spine_begin k b cs e n z : Spine m (R_begin k b cs e n z).
Proof.
  intros p ia u r a ps d0 d l f Hm K. pose proof (f_fits _ _ _ _ _ _ K) as Hf. cbn [fits] in Hf.
  apply andb_true_iff in Hf as [Hf Tz]. apply andb_true_iff in Hf as [Hf Fn]. apply andb_true_iff in Hf as [Hf Fe]. apply andb_true_iff in Hf as [Hf Fc].
  apply andb_true_iff in Hf as [Tk Fb]. apply is_a_ty in Tk, Tz.
  set (l1 := body_after after l b) in *. set (l2 := after_all (clause_after after) l1 cs) in *. set (l3 := else_after after l2 e) in *.
  fold (clauses_fit l1 cs) in Fc. cbn [text length] in Hm. rewrite !app_length in Hm. cbn [length] in Hm.
  pose proof (f_shallow _ _ _ _ _ _ K) as Sk. cbn [shallow] in Sk.
  assert (Fe1 : match e with Some (k, b) => is_a T_ElseKeyword k && body_fits after fits separated true returns l2 b | None => true end = true).
  { destruct e as [[k1 b1]|]; [|reflexivity]. apply andb_true_iff in Fe as [Fe _]. exact Fe. }
  assert (Fn1 : match n with Some (k, b) => is_a T_EnsureKeyword k && body_fits after fits separated false returns l3 b | None => true end = true).
  { destruct n as [[k1 b1]|]; [exact Fn|reflexivity]. }
  assert (Some_clause : cs <> [] \/ n <> None) by (destruct n; [right; discriminate|]; destruct cs; [discriminate Fn|left; discriminate]).
  assert (Ee : exists c w, else_text text n ++ z :: u :: r = c :: w /\ is_end_of_else (ty c) = true).
  { destruct n as [[k1 b1]|]; cbn [else_text app]; eexists; eexists; (split; [reflexivity|]).
    - apply andb_true_iff in Fn1 as [T _]. apply is_a_ty in T. rewrite T. reflexivity.
    - rewrite Tz. reflexivity. }
  destruct Ee as (c1 & w1 & E1 & T1).
  assert (Er : exists c w, else_text text e ++ c1 :: w1 = c :: w /\ is_end_of_rescue (ty c) = true).
  { destruct e as [[k1 b1]|]; cbn [else_text app]; eexists; eexists; (split; [reflexivity|]).
    - apply andb_true_iff in Fe1 as [T _]. apply is_a_ty in T. rewrite T. reflexivity.
    - apply else_rescue. exact T1. }
  destruct Er as (c2 & w2 & E2 & T2).
  destruct (clauses_first cs c2 w2 l1 Fc T2) as (c3 & w3 & E3 & T3).
  pose proof (clauses_count cs l1 Fc) as Ct.
  unfold body_fits in Fb. apply andb_true_iff in Fb as [Hb1 Hb2].
  destruct (rescue_end c3 T3) as [Sc3 Lc3].
  destruct b as [s xs]. cbn [fst snd] in *. destruct (separated_some s Hb1) as (x & y & -> & Sx & Sy).
  rewrite body_text_eq in Hm. cbn [fst snd] in Hm. rewrite app_length in Hm. cbn [length] in Hm.
  destruct (body_general m IH (Some (rescue_in_body E F)) true is_end_of_rescue ([], xs) c3 (rev (x :: y) ++ k :: a) w3 (p :: ps) (d0 :: d) l f T3 Sc3 ltac:(discriminate) Lc3 ends_rescue
    ltac:(rewrite body_text_eq; cbn [fst snd app]; clear - Hm; lia) eq_refl Hb2) as (t0 & vs & G & V).
  rewrite body_text_eq in V. cbn [fst snd app] in V. change (body_after after l ([], xs)) with l1 in V.
  set (A1 := rev (stm_text xs) ++ rev (x :: y) ++ k :: a) in *.
  remember (F - length cs - length (else_text text e) - length (else_text text n) - 1)%nat as j eqn:Ej.
  destruct (clauses_loop k (t0, vs) cs (length (else_text text e) + (length (else_text text n) + S j)) [] c2 A1 w2 (p :: ps) d0 d l1 f T2 Fc
    ltac:(intros X; apply Sk; exact X) ltac:(clear - Hm; lia)) as (rs & Srs & R1).
  fold l2 in R1. set (A2 := rev (flat_map (clause_text text) cs) ++ A1) in *.
  destruct (else_loop k (t0, vs) rs e (length (else_text text n) + S j) c1 A2 w1 (p :: ps) (d0 :: d) l2 f T1 Fe1 ltac:(clear - Hm; lia)) as (ve & Sve & R2).
  fold l3 in R2. set (A3 := rev (else_text text e) ++ A2) in *.
  destruct (ensure_loop k (t0, vs) rs ve n (length (else_text text e) - match e with Some _ => 1 | None => 0 end + j) z A3 (u :: r) (p :: ps) (d0 :: d) l3 f Tz Fn1 ltac:(clear - Hm; lia)) as (vn & Svn & R3).
  assert (Notempty : rs <> [] \/ vn <> None).
  { destruct Some_clause as [H|H].
    - left. intros ->. destruct cs as [|c0 cs]; [congruence|]. inversion Srs.
    - right. intros ->. destruct n as [[? ?]|]; [contradiction Svn|congruence]. }
  exists (N_Begin k (t0, vs) rs ve vn), 0%nat. split; [|split; [apply Nat.le_0_l|]].
  - apply good_ordinary; try reflexivity.
    + cbn [meaning]. fold l1. fold l2. fold l3. apply (stands_begin k t0 vs rs ve vn _ _ (option_meaning after meaning l2 e) _ (goods_stands fst _ _ _ G) Srs Sve Svn).
    + cbn [meaning]. unfold begin_meaning. symmetry. destruct (option_meaning _ _ _ n), (map_all _ _ _ cs); apply integer_tag; reflexivity.
  - cbn [text after]. fold l1. fold l2. fold l3. rewrite body_text_eq. cbn [fst snd]. cbn [app]. rewrite <- !app_assoc. cbn [app].
    refine (reach_null m p ia a (k :: x :: y ++ stm_text xs ++ flat_map (clause_text text) cs ++ else_text text e ++ else_text text n ++ z :: u :: r) (p :: ps) (d0 :: d) l f (parse_begin E F) _ _ _ _).
    + cbn [hd]. rewrite Tk. reflexivity.
    + unfold parse_begin. run1. run1. rewrite E1, E2, E3.
      rewrite run_next; [|exact Sy|eapply stm_line; eassumption]. unfold parse_body_rescue. rewrite (bind_ok _ _ _ _ _ V).
      run1. rewrite T3. cbn [negb]. rewrite <- E3.
      assert (R : parse_rest_of_begin E F k (t0, vs) (PState A1 (flat_map (clause_text text) cs ++ c2 :: w2) (p :: ps) (d0 :: d) l1 f) =
        POk (N_Begin k (t0, vs) rs ve vn) (PState (z :: rev (else_text text n) ++ A3) (u :: r) (p :: ps) (d0 :: d) (else_after after l3 n) f)).
      { unfold parse_rest_of_begin. fold (begin_round k (t0, vs)). rewrite <- E2 in R1. rewrite <- E1 in R2.
        replace (length cs + (length (else_text text e) + (length (else_text text n) + S j)))%nat with F in R1 by (clear - Ej Hm Ct; lia).
        rewrite <- E2. etransitivity; [exact R1|]. cbn [app]. rewrite <- E1. etransitivity; [exact R2|]. 
        replace (length (else_text text e) - match e with Some _ => 1 | None => 0 end + (length (else_text text n) + S j))%nat
          with (length (else_text text n) + S (length (else_text text e) - match e with Some _ => 1 | None => 0 end + j))%nat by (clear; lia).
        exact R3. }
      rewrite (bind_ok _ _ _ _ _ R).
      assert (Z : forall (q : M node), match N_Begin k (t0, vs) rs ve vn with N_Begin _ _ [] None None => q | _ => ret (N_Begin k (t0, vs) rs ve vn) end = ret (N_Begin k (t0, vs) rs ve vn)).
      { intros q. destruct rs; [|reflexivity]. destruct ve; [reflexivity|]. destruct vn; [reflexivity|]. destruct Notempty; congruence. }
      rewrite Z. unfold A3, A2, A1. unfold ret. cbn [rev]. rewrite !rev_app_distr. cbn [rev app]. rewrite <- !app_assoc. cbn [app]. reflexivity.
Qed.

(** *** [for] *)
Lemma spine_for k n i e b z : Spine m (R_for k n i e b z).
Proof.
  intros p ia u r a ps d0 d l f Hm K. pose proof (f_fits _ _ _ _ _ _ K) as Hf. cbn [fits] in Hf.
  apply andb_true_iff in Hf as [Hf Tz]. apply andb_true_iff in Hf as [Hf Fb]. apply andb_true_iff in Hf as [Hf Se]. apply andb_true_iff in Hf as [Hf Ae].
  apply andb_true_iff in Hf as [Hf Fe]. apply andb_true_iff in Hf as [Hf Ti]. apply andb_true_iff in Hf as [Hf Nn]. apply andb_true_iff in Hf as [Tk Vn].
  apply is_a_ty in Tk, Ti, Tz. apply negb_true_iff in Se. apply at_least_3 in Ae as (Le & Re & Ne). cbn [text length] in Hm. rewrite !app_length in Hm. cbn [length] in Hm.
  destruct (named_ok n Nn) as [Ln _].
  unfold body_fits in Fb. apply andb_true_iff in Fb as [Hb1 Hb2]. destruct (end_closer z Tz) as [Cz Lz].
  assert (Eb : exists x y, body_text text b ++ z :: u :: r = x :: y /\ separator x = true).
  { destruct (separated_some _ Hb1) as (x & y & Ex & Sx & _). rewrite body_text_eq, Ex. eexists; eexists; split; [reflexivity|exact Sx]. }
  destruct Eb as (x & y & Eb & Sx). pose proof (separator_closer x Sx) as Cx.
  set (d1 := if d0 =? uint_max then 0 else d0 + 1).
  destruct (IH e BARE_CALL_ARG IA_CURLY_ONLY x y (i :: n :: k :: a) (p :: ps) d1 d (assigned l n) f ltac:(clear - Hm; lia)) as (v & G & V).
  { constructor; try assumption.
    - apply closer_okf. exact Cx.
    - apply lthr3 in Le. eapply N.lt_le_trans; [|exact Le]. reflexivity.
    - rewrite closer_level by exact Cx. apply N.le_0_l.
    - discriminate.
    - rewrite Se. discriminate.
    - intros H. exfalso. eapply closer_not; [exact Cx| |exact H]. reflexivity.
    - intros [H|H]; exfalso; (eapply closer_not; [exact Cx| |exact H]; reflexivity).
    - intros H; exfalso; (eapply closer_not; [exact Cx| |exact H]; reflexivity).
    - rewrite Ne. discriminate. }
  { rewrite closer_level by exact Cx. apply N.le_0_l. }
  { intros H. exfalso. eapply closer_not; [exact Cx| |exact H]. reflexivity. }
  destruct (body_ok m IH None (fun x => ttype_eqb x T_EndKeyword) b z (rev (text e) ++ i :: n :: k :: a) (u :: r) (p :: ps) (d0 :: d) (after (assigned l n) e) f
    ltac:(rewrite Tz; reflexivity) Cz Lz ends_end ltac:(clear - Hm; lia) ltac:(destruct (fst b); [discriminate Hb1|exact Hb1]) Hb2) as (t0 & ws & Gw & W).
  exists (N_For k v (N_Identifier n (bound l (name n))) (t0, ws)), 0%nat. split; [|split; [apply Nat.le_0_l|]].
  - apply good_ordinary; try reflexivity.
    + cbn [meaning]. apply stands_for; [exact (g_stands _ _ _ G)|exact (goods_stands fst _ _ _ Gw)|exact Vn|exact Ln].
    + symmetry. apply integer_tag. reflexivity.
  - cbn [text after app]. rewrite <- !app_assoc. cbn [app].
    refine (reach_null m p ia a (k :: n :: i :: text e ++ body_text text b ++ z :: u :: r) (p :: ps) (d0 :: d) l f (parse_for E F) _ _ _ _).
    + cbn [hd]. rewrite Tk. reflexivity.
    + unfold parse_for. run1. run1.
      assert (X : parse_assignment_identifier E F true (PState (k :: a) (n :: i :: text e ++ body_text text b ++ z :: u :: r) (p :: ps) (d0 :: d) l f) =
        POk (N_Identifier n (bound l (name n))) (PState (n :: k :: a) (i :: text e ++ body_text text b ++ z :: u :: r) (p :: ps) (d0 :: d) l f)).
      { unfold parse_assignment_identifier. replace F with (S (S (m + m))) at 2 by (clear; lia). cbn [assignment_identifier]. run1.
        assert (Y : forall (P1 P2 P3 P4 P5 : M node), match ty n with
          | T_BareName | T_ClassVariable | T_Constant | T_GlobalVariable | T_InstanceVariable => P1
          | T_ConstantResolution => P2 | T_LParen => P3 | T_Star => P4 | _ => P5 end = P1) by (intros; destruct (ty n); try discriminate Vn; reflexivity).
        rewrite Y. rewrite (bind_ok _ _ _ _ _ (run_identifier n _ _ _ _ _ _ Nn)). unfold assignment_suffixes.
        replace F with (S (S (m + m))) by (clear; lia). apply loop_done. run1. rewrite Ti. reflexivity. }
      rewrite (bind_ok _ _ _ _ _ X). run1. rewrite Ti. change (ttype_eqb T_InKeyword T_Comma) with false. cbn [orb]. run1. rewrite run_assigned by assumption.
      run. rewrite Eb. assert (Up : forall A (q : unit -> M A) a r l, bind incr_depth q (PState a r (p :: ps) (d0 :: d) l f) = q tt (PState a r (p :: ps) (d1 :: d) l f)) by reflexivity.
      rewrite Up. rewrite (bind_ok _ _ _ _ _ V).
      assert (D : (if d1 =? 0 then uint_max else d1 - 1) = d0).
      { unfold d1. destruct (d0 =? uint_max) eqn:Q; [apply N.eqb_eq in Q; subst; reflexivity|]. destruct (d0 + 1 =? 0) eqn:Q1; [apply N.eqb_eq in Q1; lia|lia]. }
      assert (Down : forall A (q : unit -> M A) a r l, bind decr_depth q (PState a r (p :: ps) (d1 :: d) l f) = q tt (PState a r (p :: ps) (d0 :: d) l f)).
      { intros. rewrite <- D. reflexivity. }
      rewrite Down. run. rewrite (eqb_diff (ty x) T_DoKeyword) by (apply closer_not; [exact Cx|reflexivity]). run1. rewrite <- Eb.
      unfold parse_body_to. rewrite (bind_ok _ _ _ _ _ W). run. cbn [rev]. rewrite !rev_app_distr. cbn [rev app]. rewrite <- !app_assoc. reflexivity.
Qed.
End Rescue.

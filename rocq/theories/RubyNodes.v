(** * RubyNodes: what calls, blocks and definitions are transformed to

    The rest of RubyTransform.  No code is modelled here. *)
From Coq Require Import Strings.String NArith ZArith Bool List Lia.
From Verif Require Import Node ParserBase ParserModel Sexp SpecRuby RubyTransform Base Token.
Import ListNotations.
Open Scope N_scope.
Open Scope list_scope.

Ltac eqn := intros; rewrite <- ?each_map; reflexivity.
Lemma tr_call t r m a : transform (N_Call t r m a) = transform_call (append_node r (transform r)) m (append_all (appends a)).
Proof. eqn. Qed.
Lemma tr_safe t r m a : transform (N_SafeCall t r m a) =
  (transform_call (append_node r (transform r)) m (append_all (appends a)) >>
   if_assignment (set_type "safe_attrasgn") (set_type "safe_call")).
Proof. eqn. Qed.
Lemma tr_colon2 t l n : transform (N_Colon2 t l n) =
  (set_type "colon2" >> with_assignment false (append_node l (transform l)) >> append_symbol n >>
   if_assignment (wrap "cdecl") tdone).
Proof. eqn. Qed.
Lemma tr_colon3 t n : transform (N_Colon3 t n) =
  (set_type "colon3" >> append_symbol n >> if_assignment (wrap "cdecl") tdone).
Proof. eqn. Qed.
Lemma tr_array t a : transform (N_Array t a) = (set_type "array" >> append_all (appends a)).
Proof. eqn. Qed.
Lemma tr_hash t b a : transform (N_Hash t b a) = (set_type (if b then "bare_hash" else "hash")%string >> append_all (appends a)).
Proof. eqn. Qed.
Lemma tr_block t a : transform (N_Block t a) = (set_type "block" >> append_all (appends a)).
Proof. eqn. Qed.
Lemma tr_iter t c h a bt b : transform (N_Iter t c h a (bt, b)) =
  (set_type "iter" >> append_node c (transform c) >>
   (if h then append_method_or_block_args (appends a) else append_fixnum 0) >>
   (match b with [] => tdone | l => append_body bt (appends l) end)).
Proof. intros. rewrite <- !each_map. destruct b; reflexivity. Qed.
Lemma tr_def t s n a bt b : transform (N_Def t s n a (bt, b)) =
  ((match s with Some s => set_type "defs" >> append_node s (transform s) | None => set_type "defn" end) >>
   doc_comments t >> append_symbol n >> append_method_or_block_args (appends a) >>
   (match b with [] => append_nil_sexp | l => append_all (appends l) end)).
Proof. intros. rewrite <- !each_map. destruct b; reflexivity. Qed.
Lemma tr_class t n s bt b : transform (N_Class t n s (bt, b)) =
  (set_type "class" >> doc_comments t >>
   (match n with N_Identifier it _ => append_symbol_ptr (lit it) | _ => append_node n (transform n) end) >>
   append_node s (transform s) >> append_all (appends b)).
Proof. eqn. Qed.
Lemma tr_module t n bt b : transform (N_Module t n (bt, b)) =
  (set_type "module" >> doc_comments t >>
   (match n with N_Identifier it _ => append_symbol_ptr (lit it) | _ => append_node n (transform n) end) >>
   append_all (appends b)).
Proof. eqn. Qed.
Lemma tr_case t s l e : transform (N_Case t s l e) =
  (set_type "case" >> append_node s (transform s) >> append_all (appends l) >>
   (match e with Some (bt, l) => append_body bt (appends l) | None => append_nil end)).
Proof. intros. rewrite <- !each_map. destruct e as [[bt k]|]; rewrite <- ?each_map; reflexivity. Qed.
Lemma tr_when t c bt b : transform (N_CaseWhen t c (bt, b)) =
  (set_type "when" >> append_node c (transform c) >>
   (match b with [] => append_nil | l => append_all (appends l) end)).
Proof. intros. rewrite <- !each_map. destruct b; reflexivity. Qed.
Lemma tr_while t c bt b p : transform (N_While t c (bt, b) p) =
  (set_type "while" >> append_node c (transform c) >>
   (match b with [] => append_nil | l => append_body bt (appends l) end) >> (if p then append_true else append_false)).
Proof. intros. rewrite <- !each_map. destruct b; reflexivity. Qed.
Lemma tr_until t c bt b p : transform (N_Until t c (bt, b) p) =
  (set_type "until" >> append_node c (transform c) >>
   (match b with [] => append_nil | l => append_body bt (appends l) end) >> (if p then append_true else append_false)).
Proof. intros. rewrite <- !each_map. destruct b; reflexivity. Qed.
Lemma tr_yield t a : transform (N_Yield t a) = (set_type "yield" >> append_all (appends a)).
Proof. eqn. Qed.
Lemma tr_super t a p : transform (N_Super t a p) =
  match a with [] => set_type (if p then "super" else "zsuper")%string | _ => set_type "super" >> append_all (appends a) end.
Proof. intros. rewrite <- !each_map. destruct a; reflexivity. Qed.
Lemma tr_return t v : transform (N_Return t v) =
  (set_type "return" >> (match v with N_Nil _ => tdone | _ => append_node v (transform v) end)).
Proof. eqn. Qed.
Lemma tr_break t v : transform (N_Break t v) =
  (set_type "break" >> (match v with Some x => append_node x (transform x) | None => tdone end)).
Proof. eqn. Qed.
Lemma tr_next t v : transform (N_Next t v) =
  (set_type "next" >> (match v with Some x => append_node x (transform x) | None => tdone end)).
Proof. eqn. Qed.
Lemma tr_range0 t a b x : transform (N_Range t a b x) =
  match a, b with
  | N_Fixnum _ y, N_Fixnum _ z => set_type "lit" >> push (SRange y z x)
  | _, _ => set_type (if x then "dot3" else "dot2")%string >> append_node a (transform a) >> append_node b (transform b)
  end.
Proof. reflexivity. Qed.
Definition fixnum (n : node) : option Z := match n with N_Fixnum _ z => Some z | _ => None end.
Lemma range_cases {A} a b (F : Z -> Z -> A) G :
  match a, b with N_Fixnum _ y, N_Fixnum _ z => F y z | _, _ => G end =
  match fixnum a, fixnum b with Some y, Some z => F y z | _, _ => G end.
Proof. destruct a; try reflexivity. destruct b; reflexivity. Qed.
Lemma tr_arg t n b s k v : transform (N_Arg t n b s k v) =
  (set_type "lasgn" >> append_symbol (arg_name n b s k) >> (match v with Some x => append_node x (transform x) | None => tdone end)).
Proof. eqn. Qed.
Lemma tr_kwarg t n v : transform (N_KeywordArg t n v) =
  (set_type "lasgn" >> append_symbol n >> (match v with Some x => append_node x (transform x) | None => tdone end) >> set_type "kwarg").
Proof. eqn. Qed.

Ltac go2 :=
  cbn [ntoken]; unfold append_nil, tdone in *;
  repeat progress (
    unfold tseq, set_type, append_symbol, append_string, append_fixnum, append_true,
      append_false, new_creator, transform_call, if_assignment, with_assignment, tdone, append_symbol_ptr,
      pushes, append_sexp;
    cbn [push c_assignment c_line c_col c_comments c_items app];
    repeat match goal with
    | K : forall c, c_assignment c = false -> ?f c = _ |- context [?f ?c] => rewrite (K c eq_refl)
    end).
Ltac stand2 e :=
  intros; opens; eapply stands_intro; [discriminate| eexists; split; [rewrite e; go2; reflexivity|reflexivity] |];
  unfold sx; cbn; try congruence.

Lemma stands_call t r m a mr ma : stands r mr -> Forall2 stands a ma ->
  stands (N_Call t r m a) (sx "call" (mr :: SSym m :: ma)).
Proof. stand2 tr_call. Qed.
Lemma stands_safe t r m a mr ma : stands r mr -> Forall2 stands a ma ->
  stands (N_SafeCall t r m a) (sx "safe_call" (mr :: SSym m :: ma)).
Proof. stand2 tr_safe. Qed.
Lemma stands_colon2 t r n mr : stands r mr -> stands (N_Colon2 t r n) (sx "colon2" [mr; SSym n]).
Proof. stand2 tr_colon2. Qed.
Lemma stands_colon3 t n : stands (N_Colon3 t n) (sx "colon3" [SSym n]).
Proof. stand2 tr_colon3. Qed.
Lemma stands_array t a ma : Forall2 stands a ma -> stands (N_Array t a) (sx "array" ma).
Proof. stand2 tr_array. Qed.
Lemma stands_hash t a ma : Forall2 stands a ma -> stands (N_Hash t false a) (sx "hash" ma).
Proof. stand2 tr_hash. Qed.
Lemma stands_bare_hash t a ma : Forall2 stands a ma -> stands (N_Hash t true a) (sx "bare_hash" ma).
Proof. stand2 tr_hash. Qed.
Lemma tr_splat t x : transform (N_Splat t (Some x)) = (set_type "splat" >> append_node x (transform x)).
Proof. eqn. Qed.
Lemma stands_splat t x mx : stands x mx -> stands (N_Splat t (Some x)) (sx "splat" [mx]).
Proof. stand2 tr_splat. Qed.
Lemma tr_kwsplat t x : transform (N_KeywordSplat t (Some x)) = (set_type "kwsplat" >> append_node x (transform x)).
Proof. eqn. Qed.
Lemma stands_kwsplat t x mx : stands x mx -> stands (N_KeywordSplat t (Some x)) (sx "kwsplat" [mx]).
Proof. stand2 tr_kwsplat. Qed.
Lemma tr_pass t x : transform (N_BlockPass t x) = (set_type "block_pass" >> append_node x (transform x)).
Proof. eqn. Qed.
Lemma stands_pass t x mx : stands x mx -> stands (N_BlockPass t x) (sx "block_pass" [mx]).
Proof. stand2 tr_pass. Qed.
Lemma stands_block t a ma : Forall2 stands a ma -> stands (N_Block t a) (sx "block" ma).
Proof. stand2 tr_block. Qed.
Lemma stands_yield t a ma : Forall2 stands a ma -> stands (N_Yield t a) (sx "yield" ma).
Proof. stand2 tr_yield. Qed.
Lemma stands_super t a p ma : Forall2 stands a ma -> (a = [] -> p = true) -> stands (N_Super t a p) (sx "super" ma).
Proof.
  intros H P. destruct H as [|x y a ma Hx H].
  - rewrite (P eq_refl). stand2 tr_super.
  - pose proof (Forall2_cons _ _ Hx H) as K. clear Hx H. stand2 tr_super.
Qed.
Lemma stands_zsuper t : stands (N_Super t [] false) (sx "zsuper" []).
Proof. stand2 tr_super. Qed.
Lemma stands_return_nil t u : stands (N_Return t (N_Nil u)) (sx "return" []).
Proof. stand2 tr_return. Qed.
Lemma not_nil {A} v (x y : A) : (forall u, v <> N_Nil u) -> match v with N_Nil _ => x | _ => y end = y.
Proof. intros H. destruct v; try reflexivity. exfalso. eapply H. reflexivity. Qed.
Lemma stands_return t v m : (forall u, v <> N_Nil u) -> stands v m -> stands (N_Return t v) (sx "return" [m]).
Proof.
  intros Hv H. assert (E : transform (N_Return t v) = (set_type "return" >> append_node v (transform v))).
  { rewrite tr_return. rewrite not_nil by exact Hv. reflexivity. }
  clear Hv. stand2 E.
Qed.
Lemma stands_break0 t : stands (N_Break t None) (sx "break" []). Proof. stand2 tr_break. Qed.
Lemma stands_break t v m : stands v m -> stands (N_Break t (Some v)) (sx "break" [m]). Proof. stand2 tr_break. Qed.
Lemma stands_next0 t : stands (N_Next t None) (sx "next" []). Proof. stand2 tr_next. Qed.
Lemma stands_next t v m : stands v m -> stands (N_Next t (Some v)) (sx "next" [m]). Proof. stand2 tr_next. Qed.
Lemma stands_redo t : stands (N_Redo t) (sx "redo" []). Proof. stand. Qed.
Lemma stands_retry t : stands (N_Retry t) (sx "retry" []). Proof. stand. Qed.
Lemma stands_nth_ref t z : stands (N_NthRef t z) (sx "nth_ref" [SInt z]). Proof. stand. Qed.
Lemma stands_back_ref t c : stands (N_BackRef t c) (sx "back_ref" [SSym [c]]). Proof. stand. Qed.
Lemma stands_encoding t : stands (N_Encoding t) (sx "colon2" [sx "const" [SSym (s2l "Encoding")]; SSym (s2l "UTF_8")]). Proof. stand. Qed.
Lemma stands_valias t a b : stands (N_Valias t a b) (sx "valias" [SSym a; SSym b]). Proof. stand. Qed.
Lemma stands_alias t a b ma mb : stands a ma -> stands b mb -> stands (N_Alias t a b) (sx "alias" [ma; mb]). Proof. stand. Qed.
Lemma tr_undef t a : transform (N_Undef t a) = (set_type "undef" >> append_all (appends a)). Proof. eqn. Qed.
Lemma stands_undef t a ma : stands a ma -> stands (N_Undef t [a]) (sx "undef" [ma]).
Proof. intros H. assert (X : Forall2 stands [a] [ma]) by (constructor; [exact H|constructor]). revert X. generalize [a], [ma]. clear. intros a ma. stand2 tr_undef. Qed.

(** *** Bodies *)
Lemma body_pushes bt l ms : Forall2 stands l ms -> l <> [] ->
  exists s, block ms = [bare s] /\ forall c, c_assignment c = false -> append_body bt (appends l) c = push s c.
Proof.
  intros H Hl. destruct H as [|x y l ms Hx H]; [congruence|]. destruct H as [|x2 y2 l ms Hx2 H].
  - destruct Hx as (s & E & K). exists s. subst y. split; [reflexivity|]. exact K.
  - pose proof (Forall2_cons _ _ Hx (Forall2_cons _ _ Hx2 H)) as F. clear Hx Hx2 H. opens.
    eexists. split; [|intros c C; unfold append_body; cbn [appends map]; unfold append_sub; rewrite C; fold (appends l);
      change ((x, append_node x (transform x)) :: (x2, append_node x2 (transform x2)) :: appends l) with (appends (x :: x2 :: l)) ;
      unfold tseq, set_type, new_creator; cbn [c_assignment c_line c_col c_comments c_items]; rewrite K by reflexivity; reflexivity].
    unfold c_sexp. cbn [c_line c_col c_comments c_items app]. rewrite sx_flat by reflexivity. rewrite E. reflexivity.
Qed.
Lemma stands_body t l ms : Forall2 stands l ms ->
  stands (match l with [] => N_Nil t | _ => block_or_only (t, l) end) (or_nil (block ms)).
Proof.
  intros H. destruct H as [|x y l ms Hx H]; [apply stands_nil|]. destruct H as [|x2 y2 l ms Hx2 H].
  - exact Hx.
  - apply stands_block. constructor; [exact Hx|]. constructor; assumption.
Qed.
Lemma stands_program t l ms : Forall2 stands l ms ->
  stands (block_or_only (t, l)) (match ms with [v] => v | _ => sx "block" ms end).
Proof.
  intros H. destruct H as [|x y l ms Hx H]; [apply stands_block; constructor|]. destruct H as [|x2 y2 l ms Hx2 H].
  - exact Hx.
  - apply stands_block. constructor; [exact Hx|]. constructor; assumption.
Qed.
Lemma body_or_nil bt l ms : Forall2 stands l ms ->
  exists s, or_nil (block ms) = bare s /\ forall c, c_assignment c = false ->
    (match l with [] => append_nil | k => append_body bt (appends k) end) c = push s c.
Proof.
  intros H. destruct l as [|x l].
  - inversion H. exists SNil. split; reflexivity.
  - destruct (body_pushes bt _ _ H) as (s & E & K); [discriminate|]. exists s. rewrite E. split; [reflexivity|exact K].
Qed.
Lemma stands_while t c bt b first mc mb : stands c mc -> Forall2 stands b mb ->
  stands (N_While t c (bt, b) first) (sx "while" [mc; or_nil (block mb); if first then STrue else SFalse]).
Proof. intros C B. destruct (body_or_nil bt b mb B) as (s & E & K). clear B. destruct first; stand2 tr_while. Qed.
Lemma stands_until t c bt b first mc mb : stands c mc -> Forall2 stands b mb ->
  stands (N_Until t c (bt, b) first) (sx "until" [mc; or_nil (block mb); if first then STrue else SFalse]).
Proof. intros C B. destruct (body_or_nil bt b mb B) as (s & E & K). clear B. destruct first; stand2 tr_until. Qed.
Lemma stands_when t c bt b mc mb : stands c mc -> Forall2 stands b mb ->
  stands (N_CaseWhen t c (bt, b)) (sx "when" (mc :: when_body mb)).
Proof.
  intros C B. destruct B as [|x y b mb Hx B].
  - stand2 tr_when.
  - pose proof (Forall2_cons _ _ Hx B) as F. clear Hx B. stand2 tr_when.
Qed.
Lemma stands_case0 t s l ms ml : stands s ms -> Forall2 stands l ml ->
  stands (N_Case t s l None) (sx "case" (ms :: ml ++ [SNil])).
Proof. stand2 tr_case. rewrite map_app. cbn. congruence. Qed.
Lemma stands_case t s l bt b ms ml mb : stands s ms -> Forall2 stands l ml -> Forall2 stands b mb -> b <> [] ->
  stands (N_Case t s l (Some (bt, b))) (sx "case" (ms :: ml ++ [or_nil (block mb)])).
Proof.
  intros S L B Hb. destruct (body_pushes bt b mb B Hb) as (sb & E & K). clear B Hb. stand2 tr_case.
  rewrite map_app, E. cbn. congruence.
Qed.

(** *** Parameters *)
Definition param_t (x : node * T) : T :=
  match fst x with
  | N_Arg _ name block_arg splat kwsplat None =>
      append_symbol (arg_name name block_arg splat kwsplat)
  | N_Arg _ _ _ _ _ (Some _) | N_ForwardArgs _ | N_KeywordArg _ _ _
  | N_MultipleAssignmentArg _ _ | N_ShadowArg _ _ => snd x
  | N_Nil _ => append_nil
  | _ => tcrash (PUnreachable "node_with_args.cpp:30")
  end.
Definition pstands (n : node) (m : sexp) : Prop :=
  exists s, bare s = m /\ forall c, c_assignment c = false -> param_t (n, append_node n (transform n)) c = push s c.
Lemma params_push l ms : Forall2 pstands l ms -> exists s, bare s = sx "args" ms /\
  forall c, c_assignment c = false -> append_method_or_block_args (appends l) c =
    push (Sexp (c_line c + 1) (c_col c + 1) None (SSym (s2l "args") :: match s with Sexp _ _ _ (_ :: i) => i | _ => [] end)) c.
Proof.
  intros H.
  assert (A : exists is, map bare is = ms /\ forall c, c_assignment c = false ->
    fold_right (fun x f => param_t x >> f) tdone (appends l) c = pushes is c).
  { induction H as [|n m ns ms (s & Es & Hs) _ (l & El & Hl)].
    - exists []. split; [reflexivity|]. intros [? ? ? ? i] _. cbn. unfold tdone, pushes. cbn. rewrite app_nil_r. reflexivity.
    - exists (s :: l). split; [cbn; congruence|]. intros [a b d e i] Hc. cbn in Hc. subst a.
      cbn [appends map fold_right snd]. unfold tseq at 1. rewrite Hs by reflexivity. cbn [push c_assignment c_line c_col c_comments c_items].
      unfold appends in Hl. rewrite Hl by reflexivity. unfold pushes. cbn. rewrite <- app_assoc. reflexivity. }
  destruct A as (is & Ei & K). exists (Sexp 0 0 None (SSym (s2l "args") :: is)). split.
  - rewrite sx_flat by reflexivity. rewrite Ei. reflexivity.
  - intros c C. unfold append_method_or_block_args, append_sexp, tseq at 1, set_type.
    change (fold_right _ tdone (appends l)) with (fold_right (fun x f => param_t x >> f) tdone (appends l)).
    rewrite K by reflexivity. reflexivity.
Qed.
Lemma pstands_req t n : pstands (N_Arg t (Some n) false false false None) (SSym n).
Proof. exists (SSym n). split; reflexivity. Qed.
Lemma pstands_splat t n : pstands (N_Arg t (Some n) false true false None) (SSym ("*"%ch :: n)).
Proof. eexists (SSym _). split; reflexivity. Qed.
Lemma pstands_ksplat t n : pstands (N_Arg t (Some n) false false true None) (SSym ("*"%ch :: "*"%ch :: n)).
Proof. eexists (SSym _). split; reflexivity. Qed.
Lemma pstands_block t n : pstands (N_Arg t (Some n) true false false None) (SSym ("&"%ch :: n)).
Proof. eexists (SSym _). split; reflexivity. Qed.
Lemma pstands_opt t n v m : stands v m -> pstands (N_Arg t (Some n) false false false (Some v)) (sx "lasgn" [SSym n; m]).
Proof.
  intros H. assert (S : stands (N_Arg t (Some n) false false false (Some v)) (sx "lasgn" [SSym n; m])) by stand2 tr_arg.
  exact S.
Qed.
Lemma pstands_kreq t n : pstands (N_KeywordArg t n None) (sx "kwarg" [SSym n]).
Proof.
  assert (S : stands (N_KeywordArg t n None) (sx "kwarg" [SSym n])) by stand2 tr_kwarg. exact S.
Qed.
Lemma pstands_kopt t n v m : stands v m -> pstands (N_KeywordArg t n (Some v)) (sx "kwarg" [SSym n; m]).
Proof.
  intros H. assert (S : stands (N_KeywordArg t n (Some v)) (sx "kwarg" [SSym n; m])) by stand2 tr_kwarg. exact S.
Qed.

(** *** Blocks and definitions *)
Lemma args_bare s ms l c : bare s = sx "args" ms ->
  bare (Sexp l c None (SSym (s2l "args") :: match s with Sexp _ _ _ (_ :: i) => i | _ => [] end)) = sx "args" ms.
Proof.
  intros H. destruct s as [| | | | | | | | | | | |a b d i]; try discriminate H.
  destruct i as [|x i]; [discriminate H|].
  destruct x as [| | |y| | | | | | | | |p q e j]; try discriminate H;
    [|cbn in H; destruct j as [|[]]; discriminate H]. cbn [bare] in H.
  rewrite sx_flat by reflexivity. unfold sx in *.
  assert (E : y = s2l "args") by (destruct (_ || _); injection H; auto). subst y. cbn in H. injection H as _ <-. reflexivity.
Qed.
Lemma stands_iter t c h a bt b mc ma mb : stands c mc -> Forall2 pstands a ma -> Forall2 stands b mb ->
  stands (N_Iter t c h a (bt, b)) (sx "iter" (mc :: (if h then sx "args" ma else SInt 0) :: block mb)).
Proof.
  intros C A B. destruct (params_push a ma A) as (sa & Ea & Ka). clear A.
  assert (F : exists l, block mb = map bare l /\ forall c, c_assignment c = false ->
    (match b with [] => tdone | k => append_body bt (appends k) end) c = pushes l c).
  { destruct b as [|x b].
    - inversion B. exists []. split; [reflexivity|]. intros [? ? ? ? i] _. unfold pushes. cbn. rewrite app_nil_r. reflexivity.
    - destruct (body_pushes bt _ _ B) as (s & E & K); [discriminate|]. exists [s]. rewrite E. split; [reflexivity|exact K]. }
  destruct F as (lb & Eb & Kb). clear B. opens. rewrite Eb. destruct h;
  (eapply stands_intro; [discriminate| eexists; split; [rewrite tr_iter; go2; reflexivity|reflexivity] |]).
  - unfold c_sexp; cbn [c_line c_col c_comments c_items app]. rewrite sx_flat by reflexivity. cbn [map].
    rewrite (args_bare sa ma) by exact Ea. rewrite E. reflexivity.
  - unfold c_sexp; cbn [c_line c_col c_comments c_items app]. rewrite sx_flat by reflexivity. cbn [map bare].
    rewrite E. reflexivity.
Qed.
Lemma doc_flat k tag l a b : str_eqb (s2l tag) (s2l "and") || str_eqb (s2l tag) (s2l "or") = false ->
  bare (Sexp a b (doc k) (SSym (s2l tag) :: l)) = documented k (sx tag (map bare l)).
Proof. unfold sx, documented. cbn [bare]. intros ->. reflexivity. Qed.
Lemma doc_ok k c : doc_comments k (Creator false (c_line c) (c_col c) None (c_items c)) =
  TOk (Creator false (c_line c) (c_col c) (doc k) (c_items c)).
Proof. unfold doc_comments, set_comments, tdone. destruct (doc k); reflexivity. Qed.
Definition body_items (bare_body : list sexp) (cl cc : nat) : list sexp :=
  match bare_body with [] => [Sexp (cl + 1) (cc + 1) None [SSym (s2l "nil")]] | l => l end.
Lemma def_pushes b mb : Forall2 stands b mb -> exists l,
  (forall cl cc, map bare (body_items l cl cc) = def_body mb) /\
  forall cl cc d i, (match b with [] => append_nil_sexp | k => append_all (appends k) end) (Creator false cl cc d i) =
    TOk (Creator false cl cc d (i ++ body_items l cl cc)).
Proof.
  intros B. destruct b as [|x b].
  - inversion B. exists []. split; reflexivity.
  - destruct mb as [|y mb]; [inversion B|]. destruct (all_pushes _ _ B) as (l & E & K).
    destruct l as [|s l]; [discriminate|]. exists (s :: l). split; [intros; exact E|].
    intros. rewrite K by reflexivity. reflexivity.
Qed.
Lemma stands_def t s n a bt b ma mb : s = None \/ (exists u, s = Some (N_Self u)) -> Forall2 pstands a ma -> Forall2 stands b mb ->
  stands (N_Def t s n a (bt, b))
    (documented t (sx (match s with Some _ => "defs" | None => "defn" end)
       (match s with Some _ => [sx "self" []] | None => [] end ++ SSym n :: sx "args" ma :: def_body mb))).
Proof.
  intros S A B. destruct (params_push a ma A) as (sa & Ea & Ka). clear A.
  destruct (def_pushes b mb B) as (lb & Eb & Kb). clear B.
  assert (Dk : forall cl cc i, doc_comments t (Creator false cl cc None i) = TOk (Creator false cl cc (doc t) i))
    by (intros; unfold doc_comments, set_comments, tdone; destruct (doc t); reflexivity).
  destruct S as [->|(u & ->)].
  - eapply stands_intro; [discriminate|eexists; split; [rewrite tr_def; cbn [ntoken]|reflexivity]|].
    + unfold tseq, set_type, new_creator. cbn [c_assignment c_line c_col c_comments c_items]. rewrite Dk.
      unfold append_symbol at 1. cbn [push c_assignment c_line c_col c_comments c_items app].
      rewrite Ka by reflexivity. cbn [push c_assignment c_line c_col c_comments c_items app]. rewrite Kb. reflexivity.
    + unfold c_sexp. cbn [c_line c_col c_comments c_items app]. rewrite doc_flat by reflexivity. cbn [map].
      rewrite (args_bare sa ma) by exact Ea. rewrite Eb. reflexivity.
  - destruct (stands_self u) as (su & Eu & Ku).
    eapply stands_intro; [discriminate|eexists; split; [rewrite tr_def; cbn [ntoken]|reflexivity]|].
    + unfold tseq, set_type, new_creator. cbn [c_assignment c_line c_col c_comments c_items].
      rewrite Ku by reflexivity. cbn [push c_assignment c_line c_col c_comments c_items app]. rewrite Dk.
      unfold append_symbol at 1. cbn [push c_assignment c_line c_col c_comments c_items app].
      rewrite Ka by reflexivity. cbn [push c_assignment c_line c_col c_comments c_items app]. rewrite Kb. reflexivity.
    + unfold c_sexp. cbn [c_line c_col c_comments c_items app]. rewrite doc_flat by reflexivity. cbn [map].
      rewrite (args_bare sa ma) by exact Ea. rewrite Eu, Eb. reflexivity.
Qed.
(** The name of a class or module: a constant alone is a symbol. *)
Definition name_stands (n : node) (m : sexp) : Prop :=
  exists s, bare s = m /\ forall c, c_assignment c = false ->
    (match n with N_Identifier it _ => append_symbol_ptr (lit it) | _ => append_node n (transform n) end) c = push s c.
Lemma name_ident t lv : lit t = Some (name t) -> name_stands (N_Identifier t lv) (SSym (name t)).
Proof. intros L. exists (SSym (name t)). split; [reflexivity|]. intros c _. rewrite L. reflexivity. Qed.
Lemma name_other n m : (forall t lv, n <> N_Identifier t lv) -> stands n m -> name_stands n m.
Proof.
  intros H (s & E & K). exists s. split; [exact E|]. intros c C. rewrite <- (K c C).
  assert (G : forall X : T, match n with N_Identifier it _ => append_symbol_ptr (lit it) | _ => X end = X).
  { intros X. destruct n; try reflexivity. exfalso. eapply H. reflexivity. }
  rewrite G. reflexivity.
Qed.
Lemma stands_class t n s bt b mn ms mb : name_stands n mn -> stands s ms -> Forall2 stands b mb ->
  stands (N_Class t n s (bt, b)) (documented t (sx "class" (mn :: ms :: mb))).
Proof.
  intros (sn & En & Kn) S B. opens.
  assert (Dk : forall cl cc i, doc_comments t (Creator false cl cc None i) = TOk (Creator false cl cc (doc t) i))
    by (intros; unfold doc_comments, set_comments, tdone; destruct (doc t); reflexivity).
  eapply stands_intro; [discriminate|eexists; split; [rewrite tr_class; cbn [ntoken]|reflexivity]|].
  - unfold tseq, set_type, new_creator. cbn [c_assignment c_line c_col c_comments c_items]. rewrite Dk.
    rewrite Kn by reflexivity. cbn [push c_assignment c_line c_col c_comments c_items app].
    rewrite K by reflexivity. cbn [push c_assignment c_line c_col c_comments c_items app]. rewrite K0 by reflexivity. reflexivity.
  - unfold c_sexp. cbn [c_line c_col c_comments c_items app]. rewrite doc_flat by reflexivity. cbn [map]. congruence.
Qed.
Lemma stands_module t n bt b mn mb : name_stands n mn -> Forall2 stands b mb ->
  stands (N_Module t n (bt, b)) (documented t (sx "module" (mn :: mb))).
Proof.
  intros (sn & En & Kn) B. opens.
  assert (Dk : forall cl cc i, doc_comments t (Creator false cl cc None i) = TOk (Creator false cl cc (doc t) i))
    by (intros; unfold doc_comments, set_comments, tdone; destruct (doc t); reflexivity).
  eapply stands_intro; [discriminate|eexists; split; [rewrite tr_module; cbn [ntoken]|reflexivity]|].
  - unfold tseq, set_type, new_creator. cbn [c_assignment c_line c_col c_comments c_items]. rewrite Dk.
    rewrite Kn by reflexivity. cbn [push c_assignment c_line c_col c_comments c_items app]. rewrite K by reflexivity. reflexivity.
  - unfold c_sexp. cbn [c_line c_col c_comments c_items app]. rewrite doc_flat by reflexivity. cbn [map]. congruence.
Qed.
Lemma stands_range t a b x ma mb :
  stands a ma -> stands b mb -> fixnum a = integer ma -> fixnum b = integer mb ->
  stands (N_Range t a b x)
    (match integer ma, integer mb with
     | Some y, Some z => sx "lit" [SRange y z x]
     | _, _ => sx (if x then "dot3" else "dot2") [ma; mb]
     end).
Proof.
  intros A B Ia Ib. rewrite <- Ia, <- Ib. opens.
  destruct (fixnum a) eqn:Fa; [destruct (fixnum b) eqn:Fb|];
  (eapply stands_intro; [discriminate|eexists; split; [rewrite tr_range0, range_cases, Fa, ?Fb; go2; reflexivity|reflexivity]|]).
  - reflexivity.
  - destruct x; unfold c_sexp; cbn [c_line c_col c_comments c_items app]; rewrite sx_flat by reflexivity; cbn [map]; congruence.
  - destruct x; unfold c_sexp; cbn [c_line c_col c_comments c_items app]; rewrite sx_flat by reflexivity; cbn [map]; congruence.
Qed.

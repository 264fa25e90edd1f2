(** * RubyTransform: what the nodes of the parser are transformed to

    For every class of node in SpecRuby's programs: its s-expression, given those of its
    children.  No code is modelled here. *)
From Coq Require Import Strings.String NArith ZArith Bool List Lia.
From Verif Require Import Node ParserBase ParserModel Sexp SpecRuby Base Token.
Import ListNotations.
Open Scope N_scope.
Open Scope list_scope.

(** Appending [n] appends an s-expression that is [m], places aside. *)
Definition stands (n : node) (m : sexp) : Prop :=
  exists s, bare s = m /\ forall c, c_assignment c = false -> append_node n (transform n) c = push s c.

Definition appends (l : list node) : list (node * T) := map (fun x => (x, append_node x (transform x))) l.
Definition pushes (l : list sexp) : T :=
  fun c => TOk (Creator (c_assignment c) (c_line c) (c_col c) (c_comments c) (c_items c ++ l)).

Lemma all_pushes ns ms : Forall2 stands ns ms -> exists l, map bare l = ms /\
  forall c, c_assignment c = false -> append_all (appends ns) c = pushes l c.
Proof.
  induction 1 as [|n m ns ms (s & Es & Hs) _ (l & El & Hl)].
  - exists []. split; [reflexivity|]. intros [? ? ? ? i] _. cbn. unfold tdone, pushes. cbn. rewrite app_nil_r. reflexivity.
  - exists (s :: l). split; [cbn; congruence|]. intros [a b d e i] Hc. cbn in Hc. subst a.
    cbn [appends map append_all fold_right snd]. unfold tseq. rewrite Hs by reflexivity. cbn.
    change (fold_right (fun x f => snd x >> f) tdone (map (fun y => (y, append_node y (transform y))) ns))
      with (append_all (appends ns)). rewrite Hl by reflexivity. unfold pushes. cbn. rewrite <- app_assoc. reflexivity.
Qed.

Lemma chain_flat tag l : str_eqb tag (s2l "and") || str_eqb tag (s2l "or") = false ->
  bare (Sexp 0 0 None (SSym tag :: l)) = Sexp 0 0 None (SSym tag :: map bare l).
Proof. cbn [bare]. intros ->. reflexivity. Qed.

(** The transform of a node that is not nil. *)
Lemma stands_intro n s m : (forall t, n <> N_Nil t) ->
  (exists c, transform n (new_creator (ntoken n) false) = TOk c /\ c_sexp c = s) -> bare s = m -> stands n m.
Proof.
  intros Hn (c & Hc & <-) Hm. exists (c_sexp c). split; [exact Hm|]. intros c0 H0.
  assert (E : append_node n (transform n) = append_sub (ntoken n) (transform n)).
  { destruct n; try reflexivity. exfalso. eapply Hn. reflexivity. }
  rewrite E. unfold append_sub. rewrite H0, Hc. reflexivity.
Qed.
Lemma stands_sexp n m : stands n m -> (forall t, n <> N_Nil t) -> exists s, node_sexp n = inl s /\ bare s = m.
Proof.
  intros (s & Hm & H) Hn. specialize (H (Creator false 0 0 None []) eq_refl).
  assert (E : append_node n (transform n) = append_sub (ntoken n) (transform n)).
  { destruct n; try reflexivity. exfalso. eapply Hn. reflexivity. }
  rewrite E in H. unfold append_sub in H. cbn in H. unfold node_sexp.
  destruct (transform n (new_creator (ntoken n) false)); [|discriminate]. unfold push in H. cbn [c_items app] in H.
  exists s. split; [|exact Hm]. injection H as H. congruence.
Qed.
Lemma stands_nil t : stands (N_Nil t) SNil.
Proof. exists SNil. split; reflexivity. Qed.

Lemma each_map l :
  (fix go (xs : list node) : list (node * T) :=
     match xs with [] => [] | x :: xs' => (x, append_node x (transform x)) :: go xs' end) l = appends l.
Proof. induction l as [|x l IH]; cbn; [|rewrite IH]; reflexivity. Qed.

Ltac opens :=
  repeat match goal with
  | H : stands _ _ |- _ => let s := fresh "s" in let E := fresh "E" in let K := fresh "K" in
      destruct H as (s & E & K)
  | H : Forall2 stands _ _ |- _ => let s := fresh "l" in let E := fresh "E" in let K := fresh "K" in
      apply all_pushes in H; destruct H as (s & E & K)
  end.
Ltac go :=
  cbn [transform ntoken]; rewrite ?each_map;
  repeat progress (
    unfold tseq, set_type, append_symbol, append_string, append_fixnum, append_nil, append_true,
      append_false, new_creator, transform_call, if_assignment, with_assignment, tdone, append_symbol_ptr,
      pushes, append_sexp;
    cbn [push c_assignment c_line c_col c_comments c_items app];
    repeat match goal with
    | K : forall c, c_assignment c = false -> ?f c = _ |- context [?f ?c] => rewrite (K c eq_refl)
    end).
Ltac stand :=
  intros; opens; eapply stands_intro; [discriminate| eexists; split; [go; reflexivity|reflexivity] |];
  unfold sx; cbn; try congruence.

Lemma stands_fixnum t z : stands (N_Fixnum t z) (sx "lit" [SInt z]). Proof. stand. Qed.
Lemma stands_float t n s : stands (N_Float t n s) (sx "lit" [SFloat n s]). Proof. stand. Qed.
Lemma stands_bignum t s : stands (N_Bignum t s) (sx "lit" [SBig s]). Proof. stand. Qed.
Lemma stands_nilsexp t : stands (N_NilSexp t) (sx "nil" []). Proof. stand. Qed.
Lemma stands_true t : stands (N_True t) (sx "true" []). Proof. stand. Qed.
Lemma stands_false t : stands (N_False t) (sx "false" []). Proof. stand. Qed.
Lemma stands_self t : stands (N_Self t) (sx "self" []). Proof. stand. Qed.
Lemma stands_string t s : stands (N_String t s) (sx "str" [SStr s]). Proof. stand. Qed.
Lemma stands_symbol t s : stands (N_Symbol t s) (sx "lit" [SSym s]). Proof. stand. Qed.
Lemma stands_key t s : stands (N_SymbolKey t s) (sx "lit" [SSym s]). Proof. stand. Qed.
Lemma stands_unary t op r m : stands r m -> stands (N_UnaryOp t op r) (sx "call" [m; SSym op]). Proof. stand. Qed.
Lemma stands_not t r m : stands r m -> stands (N_Not t r) (sx "call" [m; SSym (s2l "!")]). Proof. stand. Qed.
Lemma stands_infix t l op r ml mr : stands l ml -> stands r mr ->
  stands (N_InfixOp t l op r) (sx "call" [ml; SSym op; mr]).
Proof. stand. Qed.
Lemma stands_if t c a b mc ma mb : stands c mc -> stands a ma -> stands b mb ->
  stands (N_If t c a b) (sx "if" [mc; ma; mb]).
Proof. stand. Qed.

(** *** Variables *)
Definition ident (lv : bool) (t : token) : sexp :=
  match ty t with
  | T_Constant => sx "const" [SSym (name t)]
  | T_InstanceVariable => sx "ivar" [SSym (name t)]
  | T_ClassVariable => sx "cvar" [SSym (name t)]
  | T_GlobalVariable => sx "gvar" [SSym (name t)]
  | _ => if lv then sx "lvar" [SSym (name t)] else sx "call" [SNil; SSym (name t)]
  end.
Lemma named_lit t : named t = true -> lit t = Some (name t).
Proof. unfold named, name. destruct (lit t); [reflexivity|discriminate]. Qed.
Ltac variables t H := destruct (ty t) eqn:?; try discriminate H.
Lemma tr_ident t lv : transform (N_Identifier t lv) = transform_identifier t lv. Proof. reflexivity. Qed.
Lemma tr_op_assign t op it lv v : transform (N_OpAssign t op (N_Identifier it lv) v) =
  (with_assignment true (transform_identifier it lv) >>
   append_sub t (transform_call (append_node (N_Identifier it lv) (transform (N_Identifier it lv))) op (append_node v (transform v)))).
Proof. reflexivity. Qed.
Lemma tr_op_and t n v : transform (N_OpAssignAnd t n v) =
  (set_type "op_asgn_and" >> append_node n (transform n) >>
   append_sub t (transform_assignment n (transform n) (append_node v (transform v)))).
Proof. reflexivity. Qed.
Lemma tr_op_or t n v : transform (N_OpAssignOr t n v) =
  (set_type "op_asgn_or" >> append_node n (transform n) >>
   append_sub t (transform_assignment n (transform n) (append_node v (transform v)))).
Proof. reflexivity. Qed.
Lemma tr_and t l r : transform (N_LogicalAnd t l r) =
  (set_type "and" >> append_node l (transform l) >> append_node r (transform r)).
Proof. reflexivity. Qed.
Lemma tr_or t l r : transform (N_LogicalOr t l r) =
  (set_type "or" >> append_node l (transform l) >> append_node r (transform r)).
Proof. reflexivity. Qed.
Lemma tr_assign t n v : transform (N_Assignment t n v) =
  transform_assignment n (transform n) (append_node v (transform v)).
Proof. reflexivity. Qed.
Lemma stands_ident t lv : is_variable (ty t) = true -> lit t = Some (name t) -> stands (N_Identifier t lv) (ident lv t).
Proof.
  intros H L. unfold ident. variables t H; try destruct lv;
  (eapply stands_intro; [discriminate
    |eexists; split; [rewrite tr_ident; cbn [ntoken]; unfold transform_identifier, if_assignment, tseq, append_symbol_ptr;
      cbn [new_creator c_assignment]; rewrite L, Heqt0; reflexivity|reflexivity]
    |reflexivity]).
Qed.
Lemma assign_sexp it lv (f : T) s : is_variable (ty it) = true -> lit it = Some (name it) ->
  (forall c, c_assignment c = false -> f c = push s c) -> forall c, c_assignment c = false ->
  exists tag, assign it (bare s) = sx tag [SSym (name it); bare s] /\
  transform_assignment (N_Identifier it lv) (transform (N_Identifier it lv)) f c =
    TOk (Creator false (tk_line it) (tk_col it) None [SSym (s2l tag); SSym (name it); s]) /\
  (tag = "lasgn" \/ tag = "cvdecl" \/ tag = "cdecl" \/ tag = "gasgn" \/ tag = "iasgn")%string.
Proof.
  intros H L K [x y z w i] C. cbn in C. subst x. unfold assign, transform_assignment, tseq, with_assignment.
  cbn [c_assignment c_line c_col c_comments c_items ntoken]. rewrite tr_ident. unfold transform_identifier, if_assignment.
  cbn [c_assignment]. unfold transform_identifier_assignment, tseq, append_symbol_ptr. rewrite L.
  variables it H; (eexists; split; [reflexivity|split; [|auto 10]]); unfold set_type, append_symbol, push;
    cbn [c_assignment c_line c_col c_comments c_items app]; rewrite K by reflexivity; reflexivity.
Qed.
Ltac tags H := repeat (destruct H as [H|H]; [rewrite H; cbn; congruence|]); rewrite H; cbn; congruence.
Lemma stands_assign t it lv v m : is_variable (ty it) = true -> lit it = Some (name it) -> stands v m ->
  stands (N_Assignment t (N_Identifier it lv) v) (assign it m).
Proof.
  intros H L (s & E & K).
  destruct (assign_sexp it lv _ s H L K (new_creator t false) eq_refl) as (tag & A & B & D).
  eapply stands_intro; [discriminate|eexists; split; [rewrite tr_assign; cbn [ntoken]; exact B|reflexivity]|].
  rewrite <- E, A. unfold sx. cbn. clear - D. tags D.
Qed.
Lemma str_refl s : str_eqb s s = true.
Proof. induction s; cbn; [reflexivity|]. rewrite N.eqb_refl. exact IHs. Qed.
Lemma variable_ident n : is_variable (ty n) = true -> ident true n = variable n.
Proof.
  unfold variable, leaf, ident, bound. intros H. cbn [existsb].
  rewrite str_refl.
  variables n H; reflexivity.
Qed.
Lemma sx_flat tag l : str_eqb (s2l tag) (s2l "and") || str_eqb (s2l tag) (s2l "or") = false ->
  forall a b, bare (Sexp a b None (SSym (s2l tag) :: l)) = sx tag (map bare l).
Proof. unfold sx. cbn [bare]. intros -> a b. reflexivity. Qed.
Lemma stands_op_assign t it op v m : is_variable (ty it) = true -> lit it = Some (name it) -> stands v m ->
  stands (N_OpAssign t op (N_Identifier it true) v) (assign it (sx "call" [variable it; SSym op; m])).
Proof.
  intros H L (s & E & K).
  destruct (stands_ident it true H L) as (si & Ei & Ki).
  pose (sc := Sexp (tk_line t + 1) (tk_col t + 1) None [SSym (s2l "call"); si; SSym op; s]).
  pose (F0 := append_sub t (transform_call (append_node (N_Identifier it true) (transform (N_Identifier it true))) op
      (append_node v (transform v)))).
  assert (Kc : forall c, c_assignment c = false -> F0 c = push sc c).
  { intros c C. unfold F0, append_sub. rewrite C. unfold transform_call, if_assignment, tseq, set_type, append_symbol, with_assignment, new_creator.
    cbn [c_assignment c_line c_col c_comments c_items]. rewrite Ki by reflexivity. cbn [push c_assignment c_line c_col c_comments c_items app].
    rewrite K by reflexivity. reflexivity. }
  assert (Es : bare sc = sx "call" [variable it; SSym op; m]).
  { unfold sc. rewrite sx_flat by reflexivity. cbn [map]. rewrite Ei, E, variable_ident by exact H. reflexivity. }
  rewrite <- Es. unfold assign.
  variables it H;
  (eapply stands_intro; [discriminate
    |eexists; split; [rewrite tr_op_assign; cbn [ntoken];
       match goal with |- context [append_sub t ?g] => change (append_sub t g) with F0 end;
       unfold tseq, with_assignment, transform_identifier, if_assignment, transform_identifier_assignment, append_symbol_ptr;
       cbn [new_creator c_assignment c_line c_col c_comments c_items]; rewrite L, Heqt0; unfold tseq, set_type, append_symbol, push;
       cbn [c_assignment c_line c_col c_comments c_items app]; 
       rewrite Kc by reflexivity; reflexivity|reflexivity]
    |reflexivity]).
Qed.
Lemma stands_assign_sub t it lv v m : is_variable (ty it) = true -> lit it = Some (name it) -> stands v m ->
  exists s, bare s = assign it m /\ forall c, c_assignment c = false ->
   append_sub t (transform_assignment (N_Identifier it lv) (transform (N_Identifier it lv)) (append_node v (transform v))) c
   = push s c.
Proof.
  intros H L (s & E & K).
  destruct (assign_sexp it lv _ s H L K (new_creator t false) eq_refl) as (tag & A & B & D).
  eexists; split; [|intros c C; unfold append_sub; rewrite C, B; reflexivity].
  rewrite <- E, A. unfold sx. cbn. clear - D. tags D.
Qed.
Lemma stands_op_and t it v m : is_variable (ty it) = true -> lit it = Some (name it) -> stands v m ->
  stands (N_OpAssignAnd t (N_Identifier it true) v) (sx "op_asgn_and" [variable it; assign it m]).
Proof.
  intros H L V. destruct (stands_assign_sub t it true v m H L V) as (s & E & K).
  pose proof (stands_ident it true H L) as I. rewrite variable_ident in I by exact H. clear V.
  destruct I as (si & Ei & Ki).
  eapply stands_intro; [discriminate|eexists; split; [|reflexivity]|].
  - rewrite tr_op_and. cbn [ntoken]. unfold tseq, set_type, new_creator. cbn [c_assignment c_line c_col c_comments c_items].
    rewrite Ki by reflexivity. cbn [push c_assignment c_line c_col c_comments c_items]. rewrite K by reflexivity. reflexivity.
  - unfold sx. cbn. congruence.
Qed.
Lemma stands_op_or t it v m : is_variable (ty it) = true -> lit it = Some (name it) -> stands v m ->
  stands (N_OpAssignOr t (N_Identifier it true) v) (sx "op_asgn_or" [variable it; assign it m]).
Proof.
  intros H L V. destruct (stands_assign_sub t it true v m H L V) as (s & E & K).
  pose proof (stands_ident it true H L) as I. rewrite variable_ident in I by exact H. clear V.
  destruct I as (si & Ei & Ki).
  eapply stands_intro; [discriminate|eexists; split; [|reflexivity]|].
  - rewrite tr_op_or. cbn [ntoken]. unfold tseq, set_type, new_creator. cbn [c_assignment c_line c_col c_comments c_items].
    rewrite Ki by reflexivity. cbn [push c_assignment c_line c_col c_comments c_items]. rewrite K by reflexivity. reflexivity.
  - unfold sx. cbn. congruence.
Qed.

(** *** Chains *)
Lemma stands_and0 t l r ml mr : stands l ml -> stands r mr -> stands (N_LogicalAnd t l r) (both "and" ml mr).
Proof. intros. opens. eapply stands_intro; [discriminate|eexists; split; [go; reflexivity|reflexivity]|].
  unfold both, sx. cbn. rewrite app_nil_r. congruence. Qed.
Lemma stands_or0 t l r ml mr : stands l ml -> stands r mr -> stands (N_LogicalOr t l r) (both "or" ml mr).
Proof. intros. opens. eapply stands_intro; [discriminate|eexists; split; [go; reflexivity|reflexivity]|].
  unfold both, sx. cbn. rewrite app_nil_r. congruence. Qed.
Lemma append_uniform n c c' : c_assignment c = false -> append_node n (transform n) c = TOk c' ->
  exists s, push s c = TOk c' /\ forall d, c_assignment d = false -> append_node n (transform n) d = push s d.
Proof.
  intros C H.
  assert (E : (forall f, append_node n f = append_nil) \/ forall f, append_node n f = append_sub (ntoken n) f).
  { destruct n; try (right; reflexivity). left. reflexivity. }
  destruct E as [E|E]; rewrite E in H |- *.
  - exists SNil. split; [exact H|]. reflexivity.
  - unfold append_sub in H. rewrite C in H. destruct (transform n _) as [x|] eqn:X; [|discriminate H].
    eexists. split; [exact H|]. intros d D. unfold append_sub. rewrite D, X. reflexivity.
Qed.
Lemma both_parts (tag : string) n t l r m :
  (n = N_LogicalAnd t l r /\ tag = "and" \/ n = N_LogicalOr t l r /\ tag = "or")%string ->
  stands n m -> exists ml mr, stands l ml /\ stands r mr /\ m = both tag ml mr.
Proof.
  intros Hn (s & Es & Ks).
  destruct (append_uniform l (Creator false (tk_line t) (tk_col t) None [SSym (s2l tag)])
    match append_node l (transform l) (Creator false (tk_line t) (tk_col t) None [SSym (s2l tag)]) with TOk c => c | _ => Creator false 0 0 None [] end) as (sl & Pl & Kl).
  { reflexivity. }
  { specialize (Ks (Creator false 0 0 None []) eq_refl).
    destruct Hn as [[-> ->]|[-> ->]]; unfold append_node at 1, append_sub in Ks; rewrite ?tr_and, ?tr_or in Ks; cbn [ntoken c_assignment] in Ks;
    unfold tseq, set_type, new_creator in Ks; cbn [c_assignment c_line c_col c_comments c_items] in Ks;
    destruct (append_node l (transform l) _); (discriminate Ks || reflexivity). }
  destruct (append_uniform r (Creator false (tk_line t) (tk_col t) None [SSym (s2l tag); sl])
    match append_node r (transform r) (Creator false (tk_line t) (tk_col t) None [SSym (s2l tag); sl]) with TOk c => c | _ => Creator false 0 0 None [] end) as (sr & Pr & Kr).
  { reflexivity. }
  { specialize (Ks (Creator false 0 0 None []) eq_refl).
    destruct Hn as [[-> ->]|[-> ->]]; unfold append_node at 1, append_sub in Ks; rewrite ?tr_and, ?tr_or in Ks; cbn [ntoken c_assignment] in Ks;
    unfold tseq, set_type, new_creator in Ks; cbn [c_assignment c_line c_col c_comments c_items] in Ks;
    rewrite Kl in Ks by reflexivity; cbn [push c_assignment c_line c_col c_comments c_items app] in Ks;
    destruct (append_node r (transform r) _); (discriminate Ks || reflexivity). }
  exists (bare sl), (bare sr). split; [exists sl; auto|]. split; [exists sr; auto|]. subst m.
  specialize (Ks (Creator false 0 0 None []) eq_refl).
  destruct Hn as [[-> ->]|[-> ->]]; unfold append_node at 1, append_sub in Ks; rewrite ?tr_and, ?tr_or in Ks; cbn [ntoken c_assignment] in Ks;
    unfold tseq, set_type, new_creator in Ks; cbn [c_assignment c_line c_col c_comments c_items] in Ks;
    rewrite Kl in Ks by reflexivity; cbn [push c_assignment c_line c_col c_comments c_items app] in Ks;
    rewrite Kr in Ks by reflexivity; cbn [push c_assignment c_line c_col c_comments c_items app] in Ks;
    injection Ks as <-; unfold both, sx; cbn; rewrite app_nil_r; reflexivity.
Qed.
Lemma both_assoc (tag : string) a b c : (tag = "and" \/ tag = "or")%string ->
  both tag (both tag a b) c = both tag a (both tag b c).
Proof.
  intros H. assert (C : forall x y, chain (s2l tag) (both tag x y) = chain (s2l tag) x ++ chain (s2l tag) y).
  { intros. unfold both, sx, chain at 1. rewrite str_refl. reflexivity. }
  unfold both at 1 3. rewrite !C, app_assoc. reflexivity.
Qed.
Lemma stands_and t l r ml mr : stands l ml -> stands r mr -> stands (make_and t l r) (both "and" ml mr).
Proof.
  intros L R.
  assert (D : (exists lt ll lr, l = N_LogicalAnd lt ll lr) \/ make_and t l r = N_LogicalAnd t l r).
  { destruct l; try (right; reflexivity). left. eauto. }
  destruct D as [(lt & ll & lr & ->)| ->]; [|apply stands_and0; assumption].
  eapply both_parts in L; [|left; split; reflexivity]. destruct L as (a & b & A & B & ->).
  rewrite both_assoc by auto. cbn [make_and]. apply stands_and0; [exact A|]. apply stands_and0; assumption.
Qed.
Lemma stands_or t l r ml mr : stands l ml -> stands r mr -> stands (make_or t l r) (both "or" ml mr).
Proof.
  intros L R.
  assert (D : (exists lt ll lr, l = N_LogicalOr lt ll lr) \/ make_or t l r = N_LogicalOr t l r).
  { destruct l; try (right; reflexivity). left. eauto. }
  destruct D as [(lt & ll & lr & ->)| ->]; [|apply stands_or0; assumption].
  eapply both_parts in L; [|right; split; reflexivity]. destruct L as (a & b & A & B & ->).
  rewrite both_assoc by auto. cbn [make_or]. apply stands_or0; [exact A|]. apply stands_or0; assumption.
Qed.

(** * ParseTransform: transforming a well-formed tree

    Transforms of the trees the parser builds fail only at the assertion of
    OpAssignAccessorNode.  No code is modelled here. *)
From Coq Require Import Strings.String NArith ZArith Bool List Lia.
From Verif Require Import Base Token Node ParserBase ParserModel ParseHoare ParseNodes Sexp.
Import ListNotations.
Open Scope N_scope.
Open Scope list_scope.

(** ** Induction over trees *)
Fixpoint node_ind_children (P : node -> Prop) (H : forall n, Forall P (children n) -> P n) (n : node) {struct n} : P n.
Proof.
  apply H. pose (IH := node_ind_children P H).
  destruct n; cbn [children];
    repeat match goal with b : (token * list node)%type |- _ => destruct b | b : option _ |- _ => destruct b end;
    cbn [obody olist snd app];
    repeat first
      [ apply Forall_nil
      | apply Forall_cons; [apply IH|]
      | apply Forall_app; split
      | match goal with |- Forall P ?l => is_var l; induction l; constructor; [apply IH|assumption] end ].
Qed.

(** [d] is [n] or lies below it. *)
Inductive below (d : node) : node -> Prop :=
| below_refl : below d d
| below_child : forall n c, In c (children n) -> below d c -> below d n.

Lemma node_ind_below (P : node -> Prop) :
  (forall n, (forall c d, In c (children n) -> below d c -> P d) -> P n) -> forall n, P n.
Proof.
  intros H n. cut (forall d, below d n -> P d); [intros K; apply K, below_refl|].
  induction n as [n IH] using node_ind_children. rewrite Forall_forall in IH.
  intros d Hd. destruct Hd as [|n c Hc Hd].
  - apply H. intros c e Hc He. eapply IH; eauto.
  - eapply IH; eauto.
Qed.

(** ** Transforms that do not fail *)
Definition tsafe (f : T) : Prop := forall c, exists c', f c = TOk c'.

Lemma safe_seq f g : tsafe f -> tsafe g -> tsafe (f >> g).
Proof. intros Hf Hg c. unfold tseq. destruct (Hf c) as [c' ->]. apply Hg. Qed.
Lemma safe_done : tsafe tdone.
Proof. intros c. eexists. reflexivity. Qed.
Lemma safe_push v : tsafe (push v).
Proof. intros c. eexists. reflexivity. Qed.
Lemma safe_comments v : tsafe (set_comments v).
Proof. intros c. eexists. reflexivity. Qed.
Lemma safe_type v : tsafe (set_type v).
Proof. intros c. eexists. reflexivity. Qed.
Lemma safe_nil_sexp : tsafe append_nil_sexp.
Proof. intros c. eexists. reflexivity. Qed.
Lemma safe_wrap v : tsafe (wrap v).
Proof. intros c. eexists. reflexivity. Qed.
Lemma safe_symbol_ptr t : has_lit t -> tsafe (append_symbol_ptr (lit t)).
Proof. unfold has_lit. destruct (lit t); [intros _; apply safe_push|congruence]. Qed.
Lemma safe_append_sexp f : tsafe f -> tsafe (append_sexp f).
Proof. intros H c. unfold append_sexp. destruct (H (Creator false (c_line c) (c_col c) None [])) as [c' ->]. apply safe_push. Qed.
Lemma safe_with b f : tsafe f -> tsafe (with_assignment b f).
Proof. intros H c. unfold with_assignment. edestruct H as [c' ->]. eexists. reflexivity. Qed.
Lemma safe_if f g : tsafe f -> tsafe g -> tsafe (if_assignment f g).
Proof. intros Hf Hg c. unfold if_assignment. destruct (c_assignment c); auto. Qed.
Lemma safe_sub t f : tsafe f -> tsafe (append_sub t f).
Proof. intros H c. unfold append_sub. edestruct H as [c' ->]. apply safe_push. Qed.
Lemma safe_node n f : tsafe f -> tsafe (append_node n f).
Proof. intros H. destruct n; try (apply safe_sub, H). apply safe_push. Qed.
Definition safe_items (l : list (node * T)) : Prop := Forall (fun x => tsafe (snd x)) l.
Lemma safe_all l : safe_items l -> tsafe (append_all l).
Proof. induction 1; [apply safe_done|]. apply safe_seq; assumption. Qed.
Lemma safe_body t l : safe_items l -> tsafe (append_body t l).
Proof.
  intros H. unfold append_body. destruct l as [|x [|y l]].
  - apply safe_sub, safe_seq; [apply safe_type|apply safe_done].
  - inversion_clear H. assumption.
  - apply safe_sub, safe_seq; [apply safe_type|apply safe_all, H].
Qed.
Lemma safe_args l : Forall (fun x => is_arg (fst x) = true /\ tsafe (snd x)) l -> tsafe (append_method_or_block_args l).
Proof.
  intros H. apply safe_append_sexp, safe_seq; [apply safe_type|].
  induction H as [|[n f] l [H1 H2] _ IH]; [apply safe_done|]. cbn [fold_right fst snd] in *.
  apply safe_seq; [|exact IH].
  destruct n; try discriminate; try exact H2; try apply safe_push. destruct value; [exact H2|apply safe_push].
Qed.
Lemma safe_interpolated l : safe_items l -> tsafe (append_interpolated l).
Proof.
  intros H. destruct H as [|[n f] l H1 H2]; [apply safe_done|].
  assert (K : tsafe (append_string [] >> append_all ((n, f) :: l)))
    by (apply safe_seq; [apply safe_push|]; apply safe_all; constructor; assumption).
  destruct n; try exact K. apply safe_seq; [apply safe_push|apply safe_all, H2].
Qed.
Lemma safe_pattern l : Forall (fun x => splat_symbol (fst x) = true /\ tsafe (snd x)) l ->
  tsafe (append_all (map array_pattern_item l)).
Proof.
  intros H. apply safe_all. induction H as [|[n f] l [H1 H2] _ IH]; constructor; [|exact IH].
  cbn [array_pattern_item fst snd] in *. destruct n; try exact H2.
  match goal with o : option node |- _ => destruct o as [n|] end; [|apply safe_push].
  destruct n; try discriminate. apply safe_push.
Qed.
Lemma safe_destructuring l : safe_items l -> tsafe (append_all (map destructuring_item l)).
Proof.
  intros H. apply safe_all. induction H as [|[n f] l H _ IH]; constructor; [|exact IH].
  cbn [destructuring_item fst snd] in *. destruct n; try exact H. apply safe_push.
Qed.
Lemma static_prefix_items l : safe_items l -> forall acc s l', static_prefix acc l = (s, l') -> safe_items l'.
Proof.
  induction 1 as [|[n f] l H1 H2 IH]; intros acc s l' E; cbn [static_prefix] in E.
  - injection E as <- <-. constructor.
  - assert (K : (acc, (n, f) :: l) = (s, l') -> safe_items l')
      by (intros [= <- <-]; constructor; assumption).
    destruct n; try (apply K, E). eapply IH, E.
Qed.
Lemma safe_string l : safe_items l -> tsafe (transform_interpolated_string l).
Proof.
  intros H. unfold transform_interpolated_string. apply safe_seq; [apply safe_type|].
  destruct l as [|x l]; [apply safe_type|]. destruct (static_prefix [] (x :: l)) as [s l'] eqn:E.
  apply static_prefix_items in E; [|exact H].
  destruct l'; apply safe_seq; try apply safe_push; [apply safe_type|apply safe_all, E].
Qed.
Lemma safe_identifier_assignment t : has_lit t -> identifier_type (ty t) = true ->
  tsafe (transform_identifier_assignment t).
Proof.
  intros H1 H2. apply safe_seq; [|apply safe_symbol_ptr, H1]. destruct (ty t); try discriminate; apply safe_type.
Qed.
Lemma safe_identifier t b : has_lit t -> identifier_type (ty t) = true -> tsafe (transform_identifier t b).
Proof.
  intros H1 H2. apply safe_if; [apply safe_identifier_assignment; assumption|].
  destruct (ty t); try discriminate; try destruct b;
    repeat first [apply safe_seq | apply safe_type | apply safe_push | apply safe_symbol_ptr, H1].
Qed.
Lemma safe_call r m a : tsafe r -> tsafe a -> tsafe (transform_call r m a).
Proof.
  intros H1 H2. unfold transform_call.
  repeat first [apply safe_seq | apply safe_if | apply safe_with | apply safe_type | apply safe_push | assumption].
Qed.
Lemma safe_assignment i f v : target i = true -> tsafe f -> tsafe v -> tsafe (transform_assignment i f v).
Proof.
  intros H1 H2 H3. apply safe_seq; [intros c; eexists; reflexivity|].
  destruct i; try discriminate; apply safe_seq; auto using safe_with.
Qed.
Lemma safe_doc t : tsafe (doc_comments t).
Proof. unfold doc_comments. destruct (doc t); [apply safe_comments|apply safe_done]. Qed.
Lemma safe_number site n : number n = true -> tsafe (append_number site n).
Proof. destruct n; try discriminate; intros _; apply safe_push. Qed.
Lemma safe_lit_make v f m :
  (forall c x l, rev (c_items c) = x :: l -> exists c', m c = TOk c') ->
  (forall c, exists c', f c = TOk c' /\ rev (c_items c') <> []) -> tsafe (set_type v >> f >> m).
Proof.
  intros Hm Hf c. unfold tseq. cbn. edestruct Hf as (c' & -> & H). destruct (rev (c_items c')) eqn:E; [congruence|].
  eapply Hm, E.
Qed.
Lemma push_items n site : number n = true -> forall c, exists c', append_number site n c = TOk c' /\ rev (c_items c') <> [].
Proof.
  destruct n; try discriminate; intros _ c; eexists; (split; [reflexivity|]); cbn; rewrite rev_app_distr; discriminate.
Qed.

(** ** The transforms of well-formed trees *)

(** A compound assignment to a method call with arguments, [a.b(1) += 2]. *)
Definition bad_accessor (n : node) : bool :=
  match n with
  | N_OpAssignAccessor _ _ _ message _ args _ =>
      negb (str_eqb message (s2l "[]=")) && match args with [] => false | _ => true end
  | _ => false
  end.
Inductive clean_tree (n : node) : Prop :=
| clean_intro : bad_accessor n = false -> Forall clean_tree (children n) -> clean_tree n.

Definition fine (n : node) : Prop := nwf n /\ clean_tree n.
Lemma fine_child n c : fine n -> In c (children n) -> fine c.
Proof.
  intros [[_ _ _ H1] [_ H2]] Hc. rewrite Forall_forall in H1, H2. split; auto.
Qed.

Lemma safe_each (f : node -> T) l :
  (forall c, In c l -> tsafe (f c)) ->
  safe_items ((fix go (xs : list node) : list (node * T) :=
    match xs with [] => [] | x :: xs' => (x, append_node x (f x)) :: go xs' end) l).
Proof.
  induction l as [|x l IH]; intros H; constructor.
  - apply safe_node, H. left. reflexivity.
  - apply IH. intros c Hc. apply H. right. exact Hc.
Qed.
Lemma safe_each_with (f : node -> T) (p : node -> bool) l :
  Forall (fun c => p c = true) l -> (forall c, In c l -> tsafe (f c)) ->
  Forall (fun x => p (fst x) = true /\ tsafe (snd x)) ((fix go (xs : list node) : list (node * T) :=
    match xs with [] => [] | x :: xs' => (x, append_node x (f x)) :: go xs' end) l).
Proof.
  induction 1 as [|x l Hx Hl IH]; intros H; constructor.
  - split; [exact Hx|]. apply safe_node, H. left. reflexivity.
  - apply IH. intros c Hc. apply H. right. exact Hc.
Qed.

Lemma safe_shadow names : tsafe (fold_right (fun s f => append_symbol s >> f) tdone names).
Proof. induction names; [apply safe_done|]. apply safe_seq; [apply safe_push|assumption]. Qed.

Ltac sub := match goal with H : forall c, _ \/ _ -> tsafe _ |- _ => apply H | H : forall c, In c _ -> tsafe _ |- _ => apply H end.
Ltac inch := cbn [children olist obody snd app In]; rewrite ?in_app_iff; cbn [In]; auto 8.
Ltac tstep :=
  lazymatch goal with
  | |- tsafe (_ >> _) => apply safe_seq
  | |- tsafe (set_type _) => apply safe_type
  | |- tsafe tdone => apply safe_done
  | |- tsafe (append_symbol_ptr _) => apply safe_symbol_ptr
  | |- tsafe (append_node _ _) => apply safe_node
  | |- tsafe (append_all (map array_pattern_item _)) => apply safe_pattern
  | |- tsafe (append_all (map destructuring_item _)) => apply safe_destructuring
  | |- tsafe (append_all _) => apply safe_all
  | |- tsafe (append_body _ _) => apply safe_body
  | |- tsafe (append_sub _ _) => apply safe_sub
  | |- tsafe (append_sexp _) => apply safe_append_sexp
  | |- tsafe (append_method_or_block_args _) => apply safe_args; apply safe_each_with
  | |- tsafe (append_interpolated _) => apply safe_interpolated
  | |- tsafe (with_assignment _ _) => apply safe_with
  | |- tsafe (if_assignment _ _) => apply safe_if
  | |- tsafe (wrap _) => apply safe_wrap
  | |- tsafe (doc_comments _) => apply safe_doc
  | |- tsafe append_nil_sexp => apply safe_nil_sexp
  | |- tsafe (append_nil) => apply safe_push
  | |- tsafe (append_true) => apply safe_push
  | |- tsafe (append_false) => apply safe_push
  | |- tsafe (append_symbol _) => apply safe_push
  | |- tsafe (append_string _) => apply safe_push
  | |- tsafe (append_fixnum _) => apply safe_push
  | |- tsafe (push _) => apply safe_push
  | |- tsafe (transform_call _ _ _) => apply safe_call
  | |- tsafe (transform_assignment _ _ _) => apply safe_assignment
  | |- Forall (fun x : node * T => tsafe (snd x)) _ => apply safe_each; intros
  | |- safe_items (_ :: _) => apply Forall_cons; cbn [snd]
  | |- safe_items _ => apply safe_each; intros
  | |- tsafe (fold_right _ _ _) => apply safe_shadow
  | |- tsafe (if ?x then _ else _) => destruct x
  | |- tsafe (match ?x with [] => _ | _ => _ end) => destruct x
  end.

Lemma safe_name n f : fine n -> tsafe f ->
  tsafe (match n with N_Identifier it _ => append_symbol_ptr (lit it) | _ => append_node n f end).
Proof.
  intros Hn Hf. pose proof (nwf_special _ (proj1 Hn)) as Hs.
  destruct n; try apply safe_node, Hf. apply safe_symbol_ptr, Hs.
Qed.
Lemma safe_complex n : number_or_rational n = true -> (forall t w, n = N_Rational t w -> number w = true) ->
  tsafe (set_type "lit" >>
    (match n with N_Rational _ w => append_number "rational_node.hpp:38" w
     | _ => append_number "complex_node.hpp:42" n end) >> make_complex_number).
Proof.
  intros H1 H2. apply safe_lit_make.
  - intros c x l E. unfold make_complex_number. rewrite E. eauto.
  - destruct n; try discriminate; try (apply push_items; assumption). apply push_items, (H2 _ _ eq_refl).
Qed.
Lemma safe_rational n : number n = true ->
  tsafe (set_type "lit" >> append_number "rational_node.hpp:38" n >> make_rational_number).
Proof.
  intros H1. apply safe_lit_make; [|apply push_items, H1].
  intros c x l E. unfold make_rational_number. rewrite E. eauto.
Qed.

Lemma transform_safe : forall n, fine n -> tsafe (transform n).
Proof.
  induction n as [n IH] using node_ind_below. intros Hn.
  assert (IHc : forall c, In c (children n) -> tsafe (transform c)).
  { intros c Hc. eapply IH; [exact Hc|apply below_refl|]. eapply fine_child; eauto. }
  assert (Fc : forall c, In c (children n) -> fine c) by (intros; eapply fine_child; eauto).
  pose proof (nwf_special _ (proj1 Hn)) as Hs.
  assert (Hb : bad_accessor n = false) by (destruct Hn as [_ []]; assumption).
  destruct n; cbn [children special bad_accessor] in *; cbn [transform].
  all: repeat match goal with b : (token * list node)%type |- _ => destruct b | b : option (token * list node) |- _ => destruct b | b : option node |- _ => destruct b end;
       cbn [olist obody snd fst app] in *.
  all: lazymatch goal with
       | |- tsafe (_ >> _ >> make_complex_number) => idtac
       | |- tsafe (_ >> _ >> make_rational_number) => idtac
       | |- _ => repeat tstep
       end.
  all: try solve [apply IHc; inch].
  all: try assumption.
  all: try solve [intros; apply IHc; inch].
  all: try solve [match goal with H : _ /\ _ |- _ => destruct H; apply safe_identifier; assumption end].
  all: lazymatch goal with
       | |- tsafe (transform _) => solve [apply IHc; cbn [In]; rewrite ?in_app_iff; intuition]
       | |- tsafe (transform_identifier (error_info_token _) _) => solve [apply safe_identifier; cbn; [discriminate|reflexivity]]
       | |- Forall _ _ => solve [apply safe_each_with; assumption]
       | |- tsafe (tcrash PAssert) => solve [rewrite andb_true_r in Hb; discriminate]
       | |- tsafe (_ >> _ >> make_rational_number) => solve [apply safe_rational, Hs]
       | |- _ => idtac
       end.
  - (* class *) apply safe_name; [apply Fc|apply IHc]; inch.
  - (* complex *) apply safe_complex; [exact Hs|]. intros t' w ->.
    apply (nwf_special (N_Rational t' w)), (Fc (N_Rational t' w)). left. reflexivity.
  - (* regexp *)
    assert (K : tsafe (append_all ((n, append_node n (transform n)) ::
       (fix go (xs : list node) : list (node * T) :=
         match xs with [] => [] | x :: xs' => (x, append_node x (transform x)) :: go xs' end) nodes))).
    { apply safe_all. constructor; [apply safe_node, IHc; inch|]. apply safe_each. intros c Hc. apply IHc. right. exact Hc. }
    destruct n; try exact K. apply safe_seq; [apply safe_push|]. apply safe_all, safe_each. intros c Hc. apply IHc. right. exact Hc.
  - (* string *) apply safe_string. clear Hs Hb Hn.
    induction nodes as [|x nodes IHl]; constructor.
    + assert (K : tsafe (append_node x (transform x))) by (apply safe_node, IHc; inch).
      cbn [snd]. destruct x; try exact K.
      match goal with o : option node |- _ => destruct o as [y|] end; [|exact K].
      destruct y; try exact K.
      match goal with l : list node, K : tsafe (append_node (N_EvaluateToString _ (Some (N_InterpolatedString _ ?l))) _) |- _ =>
        destruct l as [|e [|e' l']] end; try exact K; destruct e; try exact K.
      apply safe_node. eapply IH; [left; reflexivity| |].
      * eapply below_child; [left; reflexivity|]. eapply below_child; [left; reflexivity|]. apply below_refl.
      * eapply fine_child; [eapply fine_child; [apply Fc; left; reflexivity|left; reflexivity]|left; reflexivity].
    + apply IHl.
      * intros c d Hc Hd. eapply IH; [right; eassumption|exact Hd].
      * intros c Hc. apply IHc. right. exact Hc.
      * intros c Hc. apply Fc. right. exact Hc.
  - (* module *) apply safe_name; [apply Fc|apply IHc]; inch.
  - (* op assign *)
    assert (F : fine n1) by (apply Fc; inch). pose proof (nwf_special _ (proj1 F)) as Hi.
    assert (C1 : tsafe (transform n1)) by (apply IHc; inch). assert (C2 : tsafe (transform n2)) by (apply IHc; inch).
    destruct n1; try discriminate; repeat tstep; assumption.
  - (* range *)
    assert (C1 : tsafe (transform n1)) by (apply IHc; inch). assert (C2 : tsafe (transform n2)) by (apply IHc; inch).
    assert (K : tsafe (set_type (if exclude_end then "dot3" else "dot2") >> append_node n1 (transform n1) >> append_node n2 (transform n2)))
      by (repeat tstep; assumption).
    destruct n1; try exact K. destruct n2; try exact K. repeat tstep.
  - (* return *)
    assert (K : tsafe (append_node n (transform n))) by (apply safe_node, IHc; inch). destruct n; try exact K. apply safe_done.
Qed.

Lemma clean_or_bad : forall n, clean_tree n \/ exists d, below d n /\ bad_accessor d = true.
Proof.
  induction n as [n IH] using node_ind_children.
  destruct (bad_accessor n) eqn:E; [right; exists n; split; [apply below_refl|exact E]|].
  assert (K : Forall clean_tree (children n) \/ exists c d, In c (children n) /\ below d c /\ bad_accessor d = true).
  { induction IH as [|c l [Hc|(d & Hd & Hb)] _ [IHl|(c' & d' & Hi & Hd' & Hb')]].
    - left. constructor.
    - left. constructor; assumption.
    - right. exists c', d'. split; [right|]; auto.
    - right. exists c, d. split; [left; reflexivity|auto].
    - right. exists c, d. split; [left; reflexivity|auto]. }
  destruct K as [K|(c & d & Hc & Hd & Hb)].
  - left. constructor; assumption.
  - right. exists d. split; [eapply below_child; eauto|exact Hb].
Qed.

Theorem node_sexp_crash : forall n r, nwf n -> node_sexp n = inr r ->
  exists d, below d n /\ bad_accessor d = true.
Proof.
  intros n r Hn H. destruct (clean_or_bad n) as [Hc|Hb]; [|exact Hb].
  unfold node_sexp in H. destruct (transform_safe n (conj Hn Hc) (new_creator (ntoken n) false)) as [c' E].
  rewrite E in H. discriminate.
Qed.

(** * LexInv: invariant of the whole lexer tree *)
From Coq Require Import Strings.String NArith ZArith Bool Arith List Lia ZifyBool ZifyNat ZifyN.
From Verif Require Import Base Token Spec LexModel LexBasics LexRest LexLoops LexSpec LexEsc LexHeredoc LexSwitch LexNested.
Import ListNotations.
Open Scope N_scope.

(** ** Source positions (specification) *)

Definition pos_of (s : str) (i : nat) : cursor := Cur i (line_of s i) (col_of s i).

Lemma firstn_S_in {A} i (s : list A) d : (i < length s)%nat -> firstn (S i) s = firstn i s ++ [nth i s d].
Proof.
  revert i. induction s as [|x s IH]; intros i Hi; [simpl in Hi; lia|].
  destruct i; [reflexivity|]. cbn [firstn nth app]. f_equal. apply IH. simpl in Hi. lia.
Qed.
Lemma newlines_app a b : newlines (a ++ b) = (newlines a + newlines b)%nat.
Proof. induction a; simpl; lia. Qed.
Lemma since_app a b n : since_newline (a ++ b) n = since_newline b (since_newline a n).
Proof. revert n. induction a; intros n; simpl; auto. Qed.

Lemma pos_advance s f : l_input f = s -> wf f -> l_cur f = pos_of s (l_idx f) -> l_cur (advance f) = pos_of s (S (l_idx f)).
Proof.
  intros Hi Hw Hp. unfold advance. cbn [l_cur set_cur]. rewrite Hp. unfold pos_of. cbn [c_idx c_line c_col].
  unfold wf in Hw. rewrite Hi in Hw. unfold current_char. rewrite Hi.
  destruct (l_size f <=? l_idx f)%nat eqn:E.
  - change (0 =? ch_nl) with false. unfold line_of, col_of.
    rewrite !firstn_all2 by lia. f_equal. lia.
  - unfold line_of, col_of. rewrite (firstn_S_in _ _ oob) by lia.
    rewrite newlines_app, since_app. unfold at_. simpl newlines. simpl since_newline.
    destruct (_ =? ch_nl); f_equal; lia.
Qed.
Lemma pos_advance_n s k f : l_input f = s -> wf f -> l_cur f = pos_of s (l_idx f) ->
  l_cur (advance_n k f) = pos_of s (l_idx f + k).
Proof.
  revert f. induction k as [|k IH]; intros f Hi Hw Hp.
  - rewrite Nat.add_0_r. exact Hp.
  - cbn [advance_n]. rewrite IH; [rewrite advance_idx; f_equal; lia|exact Hi|exact Hw|].
    rewrite (pos_advance s); [reflexivity|exact Hi|exact Hw|exact Hp].
Qed.


(** ** The invariant *)

(** One lexer: it reads a text all of whose lines come from the source [s], and
    its cursor is right if it reads the source itself. *)
Record node_ok (s : str) (f : lx) (k : kind) : Prop := NodeOk {
  no_pre : pre f;
  no_lines : lines_of s (l_input f);
  no_lts : (lts (l_input f) <= lts s)%nat;
  no_kind : kind_bytes k;
  no_pos : l_input f = s -> l_cur f = pos_of s (l_idx f);
}.
(** A nested lexer and its parent. *)
Definition child_ok (f : lx) (m : lexer) : Prop :=
  let 'Lexer g _ _ := m in
  if alters_parent m then l_input g = l_input f /\ (l_idx f <= l_idx g)%nat
  else (lts (l_input g) < lts (l_input f))%nat /\ contains (s2l "<<") (l_input f).
Fixpoint ok (s : str) (l : lexer) : Prop :=
  let 'Lexer f k n := l in
  node_ok s f k /\ match n with None => True | Some m => ok s m /\ child_ok f m end.

Definition lx_of (l : lexer) : lx := let 'Lexer f _ _ := l in f.
Definition kind_of (l : lexer) : kind := let 'Lexer _ k _ := l in k.
Definition child_of (l : lexer) : option lexer := let 'Lexer _ _ n := l in n.

(** Kinds only: for the nesting of tokens. *)
Inductive btrans : ttype -> option kind -> Prop :=
| bt_plain t : plain_ty t = true -> btrans t None
| bt_eof : btrans T_Eof None
| bt_str b e al : pair_ty b e -> btrans b (Some (KStr InProgress e al))
| bt_re : btrans T_InterpolatedRegexpBegin (Some (KRegexp InProgress []))
| bt_words t it start : words_ty t it -> btrans t (Some (KWords W_InProgress it start 0 [])).
Definition ktrans (k : kind) (t : ttype) (k' : kind) (ck : option kind) : Prop :=
  match k with
  | KBase => k' = KBase /\ btrans t ck
  | _ => exists f' n', kstep f' k t k' n' /\ ck = option_map kind_of n'
  end.

(** Measure (number of '<', remaining characters, rank), lexicographic. *)
Definition mless (f' : lx) (k' : kind) (f : lx) (k : kind) : Prop :=
  (lts (l_input f') < lts (l_input f))%nat \/ l_input f' = l_input f /\ progress f k f' k'.

(** The token of one own step. *)
Record token_ok (s : str) (f : lx) (t : token) : Prop := TokenOk {
  to_doc : doc t = None;
  to_lit : opt_bytes (lit t);
  to_dbl : bytes (dbl t);
  to_pos : l_input f = s -> tok_at s t;
}.

Record own_ok (s : str) (f : lx) (k : kind) (t : token) (f' : lx) (k' : kind) (n' : option lexer) : Prop := OwnOk {
  ow_tok : token_ok s f t;
  ow_node : node_ok s f' k';
  ow_input : l_input f' = l_input f;
  ow_idx : (l_idx f <= l_idx f')%nat;
  ow_trans : ktrans k (ty t) k' (option_map kind_of n');
  ow_child : forall m, n' = Some m -> ok s m /\ child_ok f' m /\ child_of m = None /\ mless (lx_of m) (kind_of m) f k;
  ow_prog : is_eof (ty t) = false -> is_valid (ty t) = true -> progress f k f' k';
}.

Definition own_post s f k (p : token * lexer) : Prop :=
  let '(t, Lexer f' k' n') := p in own_ok s f k t f' k' n'.

(** ** Moving a node *)

Definition mv (m : nat) (f f' : lx) : Prop :=
  l_input f' = l_input f /\ l_size f' = l_size f /\ stack_ok f' /\
  exists k, (m <= k)%nat /\ l_cur f' = l_cur (advance_n k f).

Lemma mv_idx m f f' : mv m f f' -> (l_idx f + m <= l_idx f')%nat.
Proof. intros (_ & _ & _ & k & Hk & ->). rewrite advance_n_idx. lia. Qed.
Lemma mv_rem m f f' : mv m f f' -> (rem f' <= rem f)%nat.
Proof. intros H. pose proof (mv_idx _ _ _ H). destruct H as (_ & Hs & _). unfold rem. lia. Qed.
Lemma mv_pre m f f' : mv m f f' -> pre f -> pre f'.
Proof. intros (Hi & Hs & Hst & _) []. split; unfold wf in *; rewrite ?Hi, ?Hs; auto. Qed.
Lemma mv_node s m f f' k k' : mv m f f' -> node_ok s f k -> kind_bytes k' -> node_ok s f' k'.
Proof.
  intros Hm [] Hk. pose proof Hm as (Hi & Hs & Hst & j & Hj & Hc).
  split; [eapply mv_pre; eauto|rewrite Hi; auto|rewrite Hi; auto|exact Hk|].
  intros Hin. rewrite Hc at 1. rewrite (pos_advance_n s); [|congruence|apply no_pre0|apply no_pos0; congruence].
  rewrite Hc, advance_n_idx. reflexivity.
Qed.
Lemma mv_nr m f f' : nr m f f' -> stack_ok f -> mv m f f'.
Proof.
  intros [Hi Hs _ _ _ Hh _ _ Hc] Hst. split; [auto|]. split; [auto|]. split; [|exact Hc].
  unfold stack_ok in *. rewrite Hs, Hi, Hh. exact Hst.
Qed.

Lemma node_same s f g k k' :
  l_input g = l_input f -> l_size g = l_size f -> l_cur g = l_cur f -> stack_ok g -> kind_bytes k' ->
  node_ok s f k -> node_ok s g k'.
Proof.
  intros Hi Hs Hc Hst Hk [[] ? ? ? ?]. split; [split; unfold wf in *; rewrite ?Hi, ?Hs; auto|rewrite Hi; auto|rewrite Hi; auto|exact Hk|].
  intros H. rewrite Hc. apply no_pos0. congruence.
Qed.

Lemma mless_rem f' k' f k : l_input f' = l_input f -> (rem f' < rem f)%nat -> mless f' k' f k.
Proof. intros. right. split; [assumption|left; assumption]. Qed.

(** ** One own step *)

Lemma build_base_post s f :
  node_ok s f KBase ->
  post (crash_ev (l_input f)) (build_base f) (fun p =>
    let '(t, f', n') := p in
    tok_ok f t /\ mv (need (ty t)) f f' /\ (l_idx f < l_size f)%nat /\ nested_ok f' (ty t) n' \/
    t = tkc f T_Eof /\ f' = f /\ n' = None).
Proof.
  intros Hn. pose proof (no_pre _ _ _ Hn) as Hpre. pose proof Hpre as [Hw Hb Ht Hs].
  unfold build_base. destruct (l_size f <=? l_idx f)%nat eqn:Ei.
  { cbn [post]. right. auto. }
  assert (Hi : (l_idx f < l_size f)%nat) by lia. clear Ei.
  assert (Hgo : forall g, nr 0 f g -> post (crash_ev (l_input f)) (lex_switch g) (fun p =>
    let '(t, f', n') := p in
    tok_ok f t /\ mv (need (ty t)) f f' /\ (l_idx f < l_size f)%nat /\ nested_ok f' (ty t) n' \/
    t = tkc f T_Eof /\ f' = f /\ n' = None)).
  { intros g Hg. eapply post_weaken; [apply lex_switch_post; eapply nr_pre; eauto | |].
    - intros r. apply crash_input, (nr_input _ _ _ Hg).
    - intros [[t f'] n'] (H1 & (k & Hk & h & b & -> & Hst) & H3). left.
      split; [eapply tok_ok_nr_shift; eauto|]. split; [|auto].
      destruct (nr_trans 0 k k f g (advance_n k g) Hg (nr_adv _ _ _ (adv_advance_n k g)) (le_n _))
        as [Ha1 Ha2 _ _ _ _ _ _ Ha3].
      split; [exact Ha1|]. split; [exact Ha2|]. split; [exact Hst|].
      destruct Ha3 as (j & Hj & Hc). exists j. split; [lia|exact Hc]. }
  destruct (negb (l_start f =? 0) && _); [apply Hgo; nr_solve|].
  destruct (negb (l_stop f =? 0) && _).
  { destruct (l_depth f); [|apply Hgo; nr_solve]. cbn [post]. right. auto. }
  destruct (_ && _); [|apply Hgo; nr_solve].
  apply Hgo. destruct (_ =? 0xBB); destruct (_ =? 0xBF); nr_solve.
Qed.

Lemma tok_at_cursor s f t : l_cur f = pos_of s (l_idx f) -> tk_line t = c_line (l_cur f) -> tk_col t = c_col (l_cur f) -> tok_at s t.
Proof. intros Hc H1 H2. exists (l_idx f). rewrite H1, H2, Hc. auto. Qed.

Lemma token_ok_of s f k t : node_ok s f k -> tok_ok f t ->
  l_tline f = c_line (l_cur f) -> l_tcol f = c_col (l_cur f) -> token_ok s f t.
Proof.
  intros [[Hw Hb _ _] _ _ _ Hp] [H1 H2 H3 H4] Hl Hc. destruct (H4 Hw Hb) as [H5 H6].
  split; [exact H1|exact H5|exact H6|]. intros Hi. specialize (Hp Hi).
  destruct H3 as [[H3 H3']|(j & H3 & H3')].
  - apply (tok_at_cursor s f); congruence.
  - exists (l_idx f + j)%nat. rewrite H3, H3', (pos_advance_n s j f Hi Hw Hp). auto.
Qed.

Lemma nested_ok_child s f f' k' t m :
  node_ok s f' k' -> nested_ok f' t (Some m) -> (rem f' < rem f)%nat -> l_input f' = l_input f ->
  ok s m /\ child_ok f' m /\ child_of m = None /\ mless (lx_of m) (kind_of m) f KBase.
Proof.
  intros Hn H Hr Hi.
  assert (Hsame : forall g k, l_input g = l_input f' -> l_size g = l_size f' -> l_cur g = l_cur f' ->
    l_heredocs g = l_heredocs f' -> kind_bytes k -> alters_parent (Lexer g k None) = true ->
    ok s (Lexer g k None) /\ child_ok f' (Lexer g k None) /\ child_of (Lexer g k None) = None /\
    mless (lx_of (Lexer g k None)) (kind_of (Lexer g k None)) f KBase).
  { intros g k Hgi Hgs Hgc Hgh Hk Hal. split; [|split; [|split; [reflexivity|]]].
    - cbn [ok]. split; [|exact I]. eapply node_same; [exact Hgi|exact Hgs|exact Hgc| |exact Hk|exact Hn].
      pose proof (no_pre _ _ _ Hn) as []. unfold stack_ok in *. rewrite Hgs, Hgi, Hgh. exact pre_stack.
    - unfold child_ok. rewrite Hal. rewrite Hgc. auto.
    - cbn [lx_of kind_of]. apply mless_rem; [congruence|]. unfold rem in *. rewrite Hgs, Hgc. exact Hr. }
  destruct H as [(st & sp & et & -> & _)|[(st & sp & -> & _)|[(st & sp & it & -> & _)|(body & et & -> & _ & H1 & H2 & H3 & H4 & H5)]]].
  - apply Hsame; try reflexivity.
  - apply Hsame; try reflexivity. constructor.
  - apply Hsame; try reflexivity. constructor.
  - unfold new_heredoc_lexer. split; [|split; [|split; [reflexivity|]]].
    + cbn [ok]. split; [|exact I]. pose proof Hn as [].
      split; cbn [l_input set_cur new_lx l_heredocs kind_bytes l_cur]; auto.
      * split; cbn; auto; [unfold wf; reflexivity|constructor].
      * eapply lines_of_trans; eauto.
      * lia.
      * intros ->. exfalso. lia.
    + cbn. auto.
    + left. cbn. rewrite <- Hi. exact H3.
Qed.

Lemma ktrans_base_nested f' t n' : nested_ok f' t n' -> btrans t (option_map kind_of n').
Proof.
  destruct n' as [m|]; [|intros H; constructor; exact H].
  intros [(st & sp & et & -> & _ & H)|[(st & sp & -> & _ & ->)|[(st & sp & it & -> & _ & H)|(body & et & -> & H & _)]]];
    cbn; constructor; assumption.
Qed.
Lemma nested_need f' t m : nested_ok f' t (Some m) -> need t = 1%nat.
Proof.
  intros [(st & sp & et & -> & _ & H)|[(st & sp & -> & _ & ->)|[(st & sp & it & -> & _ & H)|(body & et & -> & H & _)]]].
  - destruct H as [[-> _]|[[-> _]|[-> _]]]; reflexivity.
  - reflexivity.
  - destruct it; destruct H as [-> | ->]; reflexivity.
  - destruct H as [[-> _]|[[-> _]|[-> _]]]; reflexivity.
Qed.

Lemma kstep_child s f k f' t k' n' m :
  node_ok s f' k' -> nr 0 f f' -> kstep f' k t k' n' -> n' = Some m -> progress f k f' k' ->
  ok s m /\ child_ok f' m /\ child_of m = None /\ mless (lx_of m) (kind_of m) f k.
Proof.
  intros Hn Hnr Hk Hm Hp.
  assert (Hsame : forall g, l_input g = l_input f' -> l_size g = l_size f' -> l_cur g = l_cur f' ->
    (l_heredocs g = l_heredocs f' \/ l_heredocs g = []) ->
    (0 < rank k)%nat ->
    ok s (Lexer g KBase None) /\ child_ok f' (Lexer g KBase None) /\ child_of (Lexer g KBase None) = None /\
    mless (lx_of (Lexer g KBase None)) (kind_of (Lexer g KBase None)) f k).
  { intros g Hgi Hgs Hgc Hgh Hr. split; [|split; [|split; [reflexivity|]]].
    - cbn [ok]. split; [|exact I]. eapply node_same; [exact Hgi|exact Hgs|exact Hgc| |exact I|exact Hn].
      pose proof (no_pre _ _ _ Hn) as []. unfold stack_ok in *. rewrite Hgs, Hgi. destruct Hgh as [-> | ->]; [exact pre_stack|constructor].
    - cbn. rewrite Hgc. auto.
    - right. split; [pose proof (nr_input _ _ _ Hnr); cbn; congruence|]. cbn.
      unfold progress, rem in *. rewrite Hgs, Hgc. cbn [rank]. lia. }
  destruct Hk; try discriminate; injection Hm as <-;
    (apply Hsame; [reflexivity|reflexivity|reflexivity|cbn; auto|]).
  - destruct H as [-> | ->]; cbn; lia.
  - cbn; lia.
  - cbn; lia.
Qed.

Lemma crash_ev_lines s x r : lines_of s x -> crash_ev x r -> crash_ev s r.
Proof.
  intros Hl. destruct r; cbn; auto.
  - intros (mid & ds & Hc & H1 & H2 & H3 & H4). exists mid, ds. split; [|auto].
    apply Hl; [|exact Hc]. intros [H|[H|H]]; [discriminate|discriminate|].
    apply in_app_or in H. rewrite Forall_forall in H1, H3.
    destruct H as [H|H]; [destruct (H1 _ H) as [H'|H']; discriminate|specialize (H3 _ H); discriminate].
  - intros (ds & Hc & H1 & H2). exists ds. split; [|auto].
    apply Hl; [|exact Hc]. intros [H|H]; [discriminate|]. rewrite Forall_forall in H1. specialize (H1 _ H). discriminate.
Qed.

Lemma skip_ws_post C f k : post C (skip_ws f k) (fun p => adv 0 f (snd p)).
Proof. destruct k; cbn [skip_ws]; try (cbn; apply adv_refl). apply skip_whitespace_post. Qed.

Lemma set_names_own s f k t f' k' n' ns :
  own_ok s f k t f' k' n' -> own_ok s f k t (set_names f' ns) k' n'.
Proof.
  intros []. split; auto.
  - apply (node_same s f' _ k'); [reflexivity|reflexivity|reflexivity| | |exact ow_node0]; [apply (no_pre _ _ _ ow_node0)|apply (no_kind _ _ _ ow_node0)].
Qed.

Lemma own_shift s f g k t f' k' n' :
  nr 0 f g -> own_ok s g k t f' k' n' -> own_ok s f k t f' k' n'.
Proof.
  intros Hg []. pose proof (nr_input _ _ _ Hg) as Hi. pose proof (nr_idx _ _ _ Hg) as Hx.
  split; auto.
  - destruct ow_tok0. split; auto. intros H. apply to_pos0. congruence.
  - congruence.
  - lia.
  - intros m Hm. destruct (ow_child0 m Hm) as (H1 & H2 & H3 & H4). split; [exact H1|]. split; [exact H2|]. split; [exact H3|].
    destruct H4 as [H4|[H4 H5]]; [left; congruence|right]. split; [congruence|eapply progress_more; eauto].
  - intros Ha Hb. eapply progress_more; eauto.
Qed.

Lemma next_own_post s f k : node_ok s f k -> post (crash_ev s) (next_own f k) (own_post s f k).
Proof.
  intros Hn. unfold next_own. apply post_bind.
  eapply post_weaken; [apply skip_ws_post | exact (fun _ H => H) |].
  intros [ws g] Hg; cbn [snd] in Hg. cbv zeta.
  set (h := set_tokpos g ws).
  assert (Hgn : node_ok s g k).
  { eapply mv_node; [apply mv_nr; [apply nr_adv; exact Hg|apply (no_pre _ _ _ Hn)]|exact Hn|apply (no_kind _ _ _ Hn)]. }
  assert (Hhn : node_ok s h k).
  { apply (node_same s g _ k); [reflexivity|reflexivity|reflexivity| | |exact Hgn]; [apply (no_pre _ _ _ Hgn)|apply (no_kind _ _ _ Hgn)]. }
  assert (Hfh : forall t f' k' n', own_ok s h k t f' k' n' -> own_ok s f k t f' k' n').
  { intros t f' k' n' Ho. apply (own_shift s f g); [apply nr_adv; exact Hg|].
    destruct Ho. split; auto. destruct ow_tok0; split; auto. }
  assert (Hl : l_tline h = c_line (l_cur h) /\ l_tcol h = c_col (l_cur h)) by auto.
  assert (Hst : stack_ok h) by apply (no_pre _ _ _ Hhn).
  assert (Hli : lines_of s (l_input h)) by apply (no_lines _ _ _ Hhn).
  clearbody h. apply post_bind.
  assert (Hb : post (crash_ev s) (build h k) (fun p => let '(t, f', k', n') := p in own_ok s h k t f' k' n')).
  { assert (Hnest : forall m, post (crash_ev (l_input h)) m (kstep_ok' h k) -> k <> KBase ->
      post (crash_ev s) m (fun p => let '(t, f', k', n') := p in own_ok s h k t f' k' n')).
    { intros m Hm Hk. eapply post_weaken; [exact Hm|intros r; apply crash_ev_lines, Hli|].
      intros [[[t f'] k'] n'] ((H1 & H2 & H3 & H4) & H5). cbn [fst snd] in H5.
      assert (Hn' : node_ok s f' k') by (eapply mv_node; [apply mv_nr; [exact H2|exact Hst]|exact Hhn|exact H5]).
      split; [eapply token_ok_of; eauto; tauto|exact Hn'|apply (nr_input _ _ _ H2)| | | |exact H4].
      - pose proof (nr_idx _ _ _ H2). lia.
      - destruct k; [congruence| | |]; exists f', n'; auto.
      - intros m0 ->. eapply kstep_child; [exact Hn'|exact H2|exact H3|reflexivity|]. apply H4.
        + inversion H3; reflexivity.
        + inversion H3; reflexivity. }
    pose proof Hhn as [[Hw Hby _ _] _ _ Hk _].
    destruct k; cbn [build].
    - apply post_bind.
      eapply post_weaken; [apply (build_base_post s); exact Hhn | intros r; apply crash_ev_lines, Hli |].
      intros [[t f'] n']. cbn [post]. intros [(H1 & H2 & H3 & H4)|(-> & -> & ->)].
      + assert (Hn' : node_ok s f' KBase) by (eapply mv_node; [exact H2|exact Hhn|exact I]).
        assert (Hr : need (ty t) = 1%nat -> (rem f' < rem h)%nat).
        { intros E. rewrite E in H2. pose proof (mv_idx _ _ _ H2). destruct H2 as (_ & Hs & _). unfold rem. lia. }
        split; [eapply token_ok_of; eauto; tauto|exact Hn'|apply H2| | | |].
        * pose proof (mv_idx _ _ _ H2). lia.
        * split; [reflexivity|eapply ktrans_base_nested; exact H4].
        * intros m ->. eapply nested_ok_child; [exact Hn'|exact H4|apply Hr; eapply nested_need; eauto|apply H2].
        * intros _ Hv. left. apply Hr. unfold need. rewrite Hv. reflexivity.
      + split; [|exact Hhn|reflexivity|lia| | |].
        * split; cbn; auto using bytes_nil. intros Hi. apply (tok_at_cursor s h); auto. apply (no_pos _ _ _ Hhn Hi).
        * split; [reflexivity|apply bt_eof].
        * intros m H; discriminate.
        * intros H; discriminate.
    - apply Hnest; [|discriminate]. eapply post_weaken; [apply build_str_post; auto | exact (fun _ H => H) |].
      intros [[[t f'] k'] n'] H. split; [exact H|]. destruct H as (_ & _ & H & _). inversion H; exact I.
    - apply Hnest; [|discriminate]. apply build_regexp_post; auto.
    - apply Hnest; [|discriminate]. apply build_words_post; auto. }
  eapply post_weaken; [exact Hb|exact (fun _ H => H)|].
  intros [[[t f'] k'] n'] Ho. cbn [post own_post]. apply Hfh, set_names_own, Ho.
Qed.

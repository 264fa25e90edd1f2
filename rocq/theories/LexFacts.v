(** * LexFacts: consequences of the lexer invariant *)
From Coq Require Import Strings.String NArith ZArith Bool Arith List Lia ZifyBool ZifyNat ZifyN.
From Verif Require Import Base Token Spec LexModel LexBasics LexRest LexSpec LexHeredoc LexSwitch LexNested LexInv LexTree.
Import ListNotations.
Open Scope N_scope.

(** The lexers of a chain: the outermost one and everything nested in it. *)
Fixpoint chain (l : lexer) : list lx :=
  let 'Lexer f _ n := l in f :: match n with Some m => chain m | None => [] end.

Lemma chain_nodes s l : ok s l -> forall g, In g (chain l) -> exists k, node_ok s g k.
Proof.
  induction l as [f k m IH|f k] using chain_ind; intros Hok g Hg; cbn [chain ok] in *.
  - destruct Hok as (Hn & Hm & _). destruct Hg as [<-|Hg]; [eauto|]. auto.
  - destruct Hok as (Hn & _). destruct Hg as [<-|[]]. eauto.
Qed.

Lemma reach_node s l g : bytes s -> small s -> reach s l -> In g (chain l) -> exists k, node_ok s g k.
Proof. intros Hb Hs Hr Hg. destruct (reach_ok s l Hb Hs Hr) as (Ho & _). eapply chain_nodes; eauto. Qed.

Lemma reads_in_bounds s l g : bytes s -> small s -> reach s l -> In g (chain l) ->
  l_size g = length (l_input g) /\
  forall k, current_char (advance_n k g) < 256 /\ peek (advance_n k g) < 256.
Proof.
  intros Hb Hs Hr Hg. destruct (reach_node s l g Hb Hs Hr Hg) as (k & [[Hw Hby _ _] _ _ _ _]).
  split; [exact Hw|]. intros j. split; [apply current_char_byte|apply peek_byte];
    try (apply wf_advance_n; exact Hw); rewrite advance_n_input; exact Hby.
Qed.

Lemma reach_post s l t l' : bytes s -> small s -> reach s l -> next_token l = Ok (t, l') -> tree_ok s l t l'.
Proof.
  intros Hb Hs Hr Hn. destruct (reach_ok s l Hb Hs Hr) as (Ho & _).
  pose proof (next_token_post s l Ho) as Hp. rewrite Hn in Hp. exact Hp.
Qed.

Lemma tokens_bytes s fuel ts : bytes s -> small s -> tokens fuel s = Ok ts ->
  forall t, In t ts -> opt_bytes (lit t) /\ bytes (dbl t).
Proof.
  intros Hb Hs Ht t Hin.
  pose proof (tokens_all s (fun t => opt_bytes (lit t) /\ bytes (dbl t))) as Ha.
  assert (HP : forall l t l', reach s l -> next_token l = Ok (t, l') -> opt_bytes (lit t) /\ bytes (dbl t)).
  { intros l u l' Hr Hn. destruct (reach_post s l u l' Hb Hs Hr Hn). auto. }
  specialize (Ha HP fuel ts Ht). rewrite Forall_forall in Ha.
  destruct (Ha t Hin) as (u & d & Hu & [-> | [_ ->]]); exact Hu.
Qed.

Lemma tokens_doc s fuel ts : bytes s -> small s -> tokens fuel s = Ok ts ->
  forall t, In t ts -> doc t <> None -> ty t = T_ClassKeyword \/ ty t = T_ModuleKeyword \/ ty t = T_DefKeyword.
Proof.
  intros Hb Hs Ht t Hin.
  pose proof (tokens_all s (fun t => doc t = None)) as Ha.
  assert (HP : forall l t l', reach s l -> next_token l = Ok (t, l') -> doc t = None).
  { intros l u l' Hr Hn. destruct (reach_post s l u l' Hb Hs Hr Hn). auto. }
  specialize (Ha HP fuel ts Ht). rewrite Forall_forall in Ha.
  destruct (Ha t Hin) as (u & d & Hu & [-> | [Hd ->]]); [congruence|]. intros _. cbn [ty set_doc].
  destruct (ty u); try discriminate; auto.
Qed.

Lemma reach_positions s l g : bytes s -> small s -> reach s l -> In g (chain l) -> l_input g = s ->
  c_line (l_cur g) = line_of s (l_idx g) /\ c_col (l_cur g) = col_of s (l_idx g).
Proof.
  intros Hb Hs Hr Hg Hi. destruct (reach_node s l g Hb Hs Hr Hg) as (k & []).
  rewrite (no_pos Hi). auto.
Qed.

Lemma reach_token_pos s l t l' : bytes s -> small s -> reach s l -> next_token l = Ok (t, l') ->
  in_heredoc l = false -> tok_at s t.
Proof.
  intros Hb Hs Hr Hn Hh. destruct (reach_ok s l Hb Hs Hr) as (Ho & Hi & Ha).
  destruct (reach_post s l t l' Hb Hs Hr Hn). auto.
Qed.

Lemma tokens_positions s fuel ts : bytes s -> small s -> ~ contains (s2l "<<") s -> tokens fuel s = Ok ts ->
  forall t, In t ts -> tok_at s t.
Proof.
  intros Hb Hs Hc Ht t Hin.
  pose proof (tokens_all s (tok_at s)) as Ha.
  assert (HP : forall l t l', reach s l -> next_token l = Ok (t, l') -> tok_at s t).
  { intros l u l' Hr Hn. eapply reach_token_pos; eauto.
    destruct (reach_ok s l Hb Hs Hr) as (Ho & Hi & Hal). eapply no_heredoc; eauto. }
  specialize (Ha HP fuel ts Ht). rewrite Forall_forall in Ha.
  destruct (Ha t Hin) as (u & d & Hu & [-> | [_ ->]]); exact Hu.
Qed.

(** ** Crashes *)

Lemma tokens_loop_crash s : bytes s -> small s -> forall fuel l acc skip pending r,
  reach s l -> tokens_loop fuel l acc skip pending = Crash r -> crash_ev s r.
Proof.
  intros Hb Hs. induction fuel as [|fuel IH]; intros l acc skip pending r Hr H; [discriminate|].
  cbn [tokens_loop] in H. unfold bind in H.
  destruct (reach_ok s l Hb Hs Hr) as (Ho & _). pose proof (next_token_post s l Ho) as Hp.
  destruct (next_token l) as [[t l']|r'|] eqn:En; [|cbn in Hp; congruence|discriminate].
  assert (Hl' : reach s l') by (eapply reach_step; eauto).
  destruct (is_comment (ty t)); [eauto|].
  destruct (is_doc (ty t)); [eauto|].
  destruct (skip && is_newline (ty t)); [eauto|].
  destruct pending as [d|]; [destruct (can_have_doc (ty t)); [|destruct (negb (is_end_of_line (ty t)))]|];
    cbv beta iota in *; (destruct (is_eof _); [discriminate|]); (destruct (negb (is_valid _)); [discriminate|]);
    (eapply IH; [|exact H]; apply reach_record; exact Hl').
Qed.
Lemma tokens_crash s fuel r : bytes s -> small s -> tokens fuel s = Crash r -> crash_ev s r.
Proof. intros Hb Hs H. eapply tokens_loop_crash; eauto. constructor. Qed.

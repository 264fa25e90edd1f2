(** * LexTree: steps of the whole lexer tree, termination of tokens() *)
From Coq Require Import Strings.String NArith ZArith Bool Arith List Lia ZifyBool ZifyNat ZifyN Wellfounded.
From Verif Require Import Base Token Spec LexModel LexBasics LexRest LexLoops LexSpec LexEsc LexHeredoc LexSwitch LexNested LexInv.
Import ListNotations.
Open Scope N_scope.

Lemma chain_ind (P : lexer -> Prop) :
  (forall f k m, P m -> P (Lexer f k (Some m))) -> (forall f k, P (Lexer f k None)) -> forall l, P l.
Proof. intros H1 H0. fix IH 1. intros [f k [m|]]; [apply H1, IH|apply H0]. Qed.

(** Some lexer of the chain reads a heredoc body. *)
Fixpoint in_heredoc (l : lexer) : bool :=
  negb (alters_parent l) || match l with Lexer _ _ (Some m) => in_heredoc m | _ => false end.

Record tree_ok (s : str) (l : lexer) (t : token) (l' : lexer) : Prop := TreeOk {
  tr_ok : ok s l';
  tr_input : l_input (lx_of l') = l_input (lx_of l);
  tr_idx : (l_idx (lx_of l) <= l_idx (lx_of l'))%nat;
  tr_alters : alters_parent l' = alters_parent l;
  tr_doc : doc t = None;
  tr_lit : opt_bytes (lit t);
  tr_dbl : bytes (dbl t);
  tr_pos : l_input (lx_of l) = s -> in_heredoc l = false -> tok_at s t;
}.

Lemma ktrans_alters k t k' ck f f' n n' : ktrans k t k' ck -> alters_parent (Lexer f' k' n') = alters_parent (Lexer f k n).
Proof.
  destruct k; cbn [ktrans].
  - intros [-> _]. reflexivity.
  - intros (g & m & H & _). inversion H; reflexivity.
  - intros (g & m & H & _). inversion H; reflexivity.
  - intros (g & m & H & _). inversion H; reflexivity.
Qed.

(** The parent takes over the cursor of a finished child. *)
Definition resume (f : lx) (m : lexer) : lx := if alters_parent m then set_cur f (lexer_cur m) else f.

Lemma resume_node s f k m : node_ok s f k -> ok s m -> child_ok f m -> node_ok s (resume f m) k.
Proof.
  intros Hn Hm Hc. unfold resume. destruct (alters_parent m) eqn:Ea; [|exact Hn].
  destruct m as [g km nm]. unfold child_ok in Hc. rewrite Ea in Hc. destruct Hc as [Hi Hx].
  destruct Hm as [Hgn _]. cbn [lexer_cur].
  pose proof Hn as [[] ? ? ? ?]. pose proof Hgn as [? ? ? ? Hp].
  split; [split; auto|auto|auto|auto|]. cbn [l_input set_cur l_cur]. intros E. apply Hp. congruence.
Qed.
Lemma resume_input f m : l_input (resume f m) = l_input f.
Proof. unfold resume. destruct (alters_parent m); reflexivity. Qed.
Lemma resume_size f m : l_size (resume f m) = l_size f.
Proof. unfold resume. destruct (alters_parent m); reflexivity. Qed.
Lemma resume_idx f m : child_ok f m -> (l_idx f <= l_idx (resume f m))%nat.
Proof.
  unfold resume, child_ok. destruct m as [g km nm]. destruct (alters_parent _); [|lia].
  intros [_ H]. exact H.
Qed.

Lemma child_step f m m' : child_ok f m -> l_input (lx_of m') = l_input (lx_of m) ->
  (l_idx (lx_of m) <= l_idx (lx_of m'))%nat -> alters_parent m' = alters_parent m -> child_ok f m'.
Proof.
  destruct m as [g k n], m' as [g' k' n']. unfold child_ok. cbn [lx_of]. intros H Hi Hx Ha. rewrite Ha.
  destruct (alters_parent _); [|rewrite Hi; exact H]. split; [rewrite Hi|]; lia || tauto.
Qed.

Lemma next_token_post s l : ok s l ->
  post (crash_ev s) (next_token l) (fun p => tree_ok s l (fst p) (snd p)).
Proof.
  induction l as [f k m IH|f k] using chain_ind; intros Hok; cbn [next_token].
  - destruct Hok as (Hn & Hm & Hc). apply post_bind.
    eapply post_weaken; [apply IH; exact Hm | exact (fun _ H => H) |].
    intros [t m'] []; cbn [fst snd] in *.
    assert (Hc' : child_ok f m') by (eapply child_step; eauto).
    destruct (is_eof (ty t)) eqn:Ee.
    + fold (resume f m').
      eapply post_weaken; [apply (next_own_post s); apply resume_node; eauto | exact (fun _ H => H) |].
      intros [t' [f' k' n']] Ho. cbn [own_post fst snd] in *. destruct Ho.
      pose proof (resume_input f m') as Hri. pose proof (resume_idx f m' Hc') as Hrx.
      split; cbn [lx_of]; try (apply ow_tok).
      * cbn [ok]. split; [exact ow_node|]. destruct n' as [m0|]; [|exact I].
        destruct (ow_child m0 eq_refl) as (H1 & H2 & _). auto.
      * congruence.
      * lia.
      * eapply ktrans_alters; eauto.
      * intros Hi _. apply (to_pos _ _ _ ow_tok). congruence.
    + cbn [post fst snd]. split; cbn [lx_of]; auto.
      * cbn [ok]. auto.
      * intros Hi Hh. cbn [in_heredoc] in Hh. apply orb_false_elim in Hh. destruct Hh as [_ Hh].
        apply tr_pos0; [|exact Hh]. destruct m as [g km nm]. unfold child_ok in Hc. cbn [lx_of].
        destruct (alters_parent (Lexer g km nm)) eqn:Ea.
        -- destruct Hc. congruence.
        -- cbn [in_heredoc] in Hh. rewrite Ea in Hh. discriminate.
  - destruct Hok as (Hn & _).
    eapply post_weaken; [apply (next_own_post s); exact Hn | exact (fun _ H => H) |].
    intros [t' [f' k' n']] Ho. cbn [own_post fst snd] in *. destruct Ho.
    split; cbn [lx_of]; try (apply ow_tok).
    * cbn [ok]. split; [exact ow_node|]. destruct n' as [m0|]; [|exact I].
      destruct (ow_child m0 eq_refl) as (H1 & H2 & _). auto.
    * exact ow_input.
    * exact ow_idx.
    * eapply ktrans_alters; eauto.
    * intros Hi _. apply (to_pos _ _ _ ow_tok). exact Hi.
Qed.

Lemma ok_record s l t : ok s l -> ok s (record_last l t).
Proof.
  destruct l as [f k n]. cbn [ok record_last]. intros (Hn & Hc). split.
  - apply (node_same s f _ k); [reflexivity|reflexivity|reflexivity| | |exact Hn]; [apply (no_pre _ _ _ Hn)|apply (no_kind _ _ _ Hn)].
  - destruct n as [m|]; [|exact I]. destruct Hc as [Hm Hc]. split; [exact Hm|]. destruct m; exact Hc.
Qed.

Lemma ok_start s : bytes s -> small s -> ok s (Lexer (new_lx s) KBase None).
Proof.
  intros Hb Hs. cbn [ok]. split; [|exact I]. split; cbn; auto.
  - split; cbn; auto; [apply wf_new|left; exact Hs|constructor].
  - apply lines_of_refl.
Qed.

Lemma heredoc_evidence s l : ok s l -> in_heredoc l = true -> alters_parent l = true ->
  exists f, (lts (l_input f) <= lts s)%nat /\ lines_of s (l_input f) /\ contains (s2l "<<") (l_input f).
Proof.
  induction l as [f k m IH|f k] using chain_ind; intros Hok Hh Ha; cbn [in_heredoc] in Hh; rewrite Ha in Hh; [|discriminate].
  cbn [negb orb] in Hh. destruct Hok as (Hn & Hm & Hc).
  destruct (alters_parent m) eqn:Em; [eapply IH; eauto|].
  exists f. split; [apply (no_lts _ _ _ Hn)|]. split; [apply (no_lines _ _ _ Hn)|].
  destruct m as [g km nm]. unfold child_ok in Hc. rewrite Em in Hc. tauto.
Qed.
Lemma no_heredoc s l : ok s l -> alters_parent l = true -> ~ contains (s2l "<<") s -> in_heredoc l = false.
Proof.
  intros Ho Ha Hc. destruct (in_heredoc l) eqn:E; [|reflexivity]. exfalso. apply Hc.
  destruct (heredoc_evidence s l Ho E Ha) as (f & _ & Hl & Hf). apply Hl; [|exact Hf].
  intros [H|[H|[]]]; discriminate.
Qed.

(** ** Reachable states of a run of tokens() *)

Inductive reach (s : str) : lexer -> Prop :=
| reach_start : reach s (Lexer (new_lx s) KBase None)
| reach_step l t l' : reach s l -> next_token l = Ok (t, l') -> reach s l'
| reach_record l t : reach s l -> reach s (record_last l t).

Lemma reach_ok s l : bytes s -> small s -> reach s l -> ok s l /\ l_input (lx_of l) = s /\ alters_parent l = true.
Proof.
  intros Hb Hs. induction 1 as [|l t l' Hr (Ho & Hi & Ha) Hn|l t Hr (Ho & Hi & Ha)].
  - split; [apply ok_start; assumption|]. split; reflexivity.
  - pose proof (next_token_post s l Ho) as Hp. rewrite Hn in Hp. destruct Hp. cbn [fst snd] in *.
    split; [assumption|]. split; congruence.
  - split; [apply ok_record; exact Ho|]. destruct l as [f k n]. split; [exact Hi|exact Ha].
Qed.

(** Tokens produced by tokens() satisfy what every step guarantees. *)
Lemma tokens_loop_all (s : str) (P : token -> Prop) :
  (forall l t l', reach s l -> next_token l = Ok (t, l') -> P t) ->
  forall fuel l acc skip pending r,
    reach s l -> Forall (fun t => exists u d, P u /\ (t = u \/ can_have_doc (ty u) = true /\ t = set_doc u d)) acc ->
    tokens_loop fuel l acc skip pending = Ok r ->
    Forall (fun t => exists u d, P u /\ (t = u \/ can_have_doc (ty u) = true /\ t = set_doc u d)) r.
Proof.
  intros HP. induction fuel as [|fuel IH]; intros l acc skip pending r Hl Hacc H; [discriminate|].
  cbn [tokens_loop] in H. unfold bind in H.
  destruct (next_token l) as [[t l']| |] eqn:En; try discriminate.
  pose proof (HP _ _ _ Hl En) as Ht.
  assert (Hl' : reach s l') by (eapply reach_step; eauto).
  destruct (is_comment (ty t)); [eauto|].
  destruct (is_doc (ty t)); [eauto|].
  destruct (skip && is_newline (ty t)); [eauto|].
  set (acc' := if can_follow_collapsible_newline (ty t) then pop_newlines acc else acc) in *.
  assert (Ha : Forall (fun t => exists u d, P u /\ (t = u \/ can_have_doc (ty u) = true /\ t = set_doc u d)) acc').
  { subst acc'. destruct (can_follow_collapsible_newline (ty t)); [|exact Hacc].
    clear - Hacc. induction acc as [|x acc IH]; [constructor|]. cbn [pop_newlines].
    destruct (is_newline (ty x)); [|exact Hacc]. inversion Hacc; auto. }
  clearbody acc'.
  assert (Hgo : forall u pend, (exists v d, P v /\ (u = v \/ can_have_doc (ty v) = true /\ u = set_doc v d)) ->
    (if is_eof (ty u) then Ok (rev (u :: acc'))
     else if negb (is_valid (ty u)) then Ok (rev (u :: acc'))
     else tokens_loop fuel (record_last l' u) (u :: acc') (can_precede_collapsible_newline (ty u)) pend) = Ok r ->
    Forall (fun t => exists u d, P u /\ (t = u \/ can_have_doc (ty u) = true /\ t = set_doc u d)) r).
  { intros u pend Hu Hr.
    assert (Hrv : forall r', Ok (rev (u :: acc')) = Ok r' -> r' = rev (u :: acc')) by (intros; congruence).
    destruct (is_eof (ty u)); [apply Hrv in Hr; subst r; apply Forall_rev; constructor; assumption|].
    destruct (negb (is_valid (ty u))); [apply Hrv in Hr; subst r; apply Forall_rev; constructor; assumption|].
    eapply IH; [| |exact Hr]; [apply reach_record; exact Hl'|constructor; assumption]. }
  destruct pending as [d|].
  - destruct (can_have_doc (ty t)) eqn:Ed; [eapply (Hgo (set_doc t d)); [|exact H]; exists t, d; auto|].
    destruct (negb (is_end_of_line (ty t))); (eapply (Hgo t); [|exact H]; exists t, d; auto).
  - eapply (Hgo t); [|exact H]. exists t, []; auto.
Qed.

Lemma tokens_all s (P : token -> Prop) :
  (forall l t l', reach s l -> next_token l = Ok (t, l') -> P t) ->
  forall fuel r, tokens fuel s = Ok r ->
    Forall (fun t => exists u d, P u /\ (t = u \/ can_have_doc (ty u) = true /\ t = set_doc u d)) r.
Proof.
  intros HP fuel r H. eapply tokens_loop_all; [exact HP| | |exact H]; [constructor|constructor].
Qed.

(** ** Termination *)

(** One iteration of the loop in tokens(). *)
Definition steps (l' l : lexer) : Prop :=
  exists t m, next_token l = Ok (t, m) /\ is_eof (ty t) = false /\ is_valid (ty t) = true /\
    (l' = m \/ exists u, l' = record_last m u).

(** The measure of a node. *)
Definition meas (f : lx) (k : kind) : nat * (nat * nat) := (lts (l_input f), (rem f, rank k)).
Definition nlt2 (a b : nat * nat) : Prop := (fst a < fst b)%nat \/ fst a = fst b /\ (snd a < snd b)%nat.
Definition nlt3 (a b : nat * (nat * nat)) : Prop :=
  (fst a < fst b)%nat \/ fst a = fst b /\ nlt2 (snd a) (snd b).

Lemma nlt2_wf : well_founded nlt2.
Proof.
  intros [a b]. revert b. induction a as [a IHa] using (well_founded_induction lt_wf). intros b.
  induction b as [b IHb] using (well_founded_induction lt_wf).
  constructor. intros [a' b'] [H|[H1 H2]]; cbn in *; [auto|]. subst a'. auto.
Qed.
Lemma nlt3_wf : well_founded nlt3.
Proof.
  intros [a b]. revert b. induction a as [a IHa] using (well_founded_induction lt_wf). intros b.
  induction b as [b IHb] using (well_founded_induction nlt2_wf).
  constructor. intros [a' b'] [H|[H1 H2]]; cbn in *; [auto|]. subst a'. auto.
Qed.

Lemma mless_nlt f' k' f k : mless f' k' f k -> nlt3 (meas f' k') (meas f k).
Proof.
  intros [H|[H1 H2]]; [left; exact H|]. right. cbn [fst snd meas]. split; [congruence|].
  destruct H2 as [H2|[H2 H3]]; unfold nlt2; cbn [fst snd]; lia.
Qed.

Lemma acc_record l t : Acc steps l -> Acc steps (record_last l t) -> Acc steps (record_last l t).
Proof. auto. Qed.

(** Every well-formed lexer reaches Eof or an error. *)
Lemma all_acc s : forall mu f k, meas f k = mu -> node_ok s f k ->
  Acc steps (Lexer f k None) /\
  forall m, Acc steps m -> ok s m -> child_ok f m -> Acc steps (Lexer f k (Some m)).
Proof.
  intros mu. induction mu as [mu IH] using (well_founded_induction nlt3_wf).
  (* what one own step leads to *)
  assert (Hown : forall f k t f' k' n', (meas f k = mu \/ nlt3 (meas f k) mu) ->
            own_ok s f k t f' k' n' -> is_eof (ty t) = false -> is_valid (ty t) = true ->
            forall u, Acc steps (Lexer (set_last f' u) k' n') /\ Acc steps (Lexer f' k' n')).
  { intros f k t f' k' n' Hmu Ho He Hv u. pose proof Ho as [].
    assert (Hlt : nlt3 (meas f' k') mu).
    { assert (H0 : nlt3 (meas f' k') (meas f k)) by (apply mless_nlt; right; split; [exact ow_input|auto]).
      destruct Hmu as [<-|Hmu]; [exact H0|].
      clear - H0 Hmu. destruct mu as [a [b c]]. unfold nlt3, nlt2 in *. cbn [fst snd] in *. lia. }
    assert (Hgo : forall g, l_input g = l_input f' -> l_size g = l_size f' -> l_cur g = l_cur f' ->
              l_heredocs g = l_heredocs f' -> Acc steps (Lexer g k' n')).
    { intros g Hgi Hgs Hgc Hgh.
      assert (Hgn : node_ok s g k').
      { apply (node_same s f' _ k'); auto; [|apply (no_kind _ _ _ ow_node)].
        pose proof (no_pre _ _ _ ow_node) as []. unfold stack_ok in *. rewrite Hgs, Hgi, Hgh. exact pre_stack. }
      assert (Hgm : meas g k' = meas f' k') by (unfold meas, rem; rewrite Hgi, Hgs, Hgc; reflexivity).
      destruct (IH (meas f' k') Hlt g k' Hgm Hgn) as [H1 H2].
      destruct n' as [m|]; [|exact H1].
      destruct (ow_child m eq_refl) as (C1 & C2 & C3 & C4).
      apply H2; [|exact C1|].
      - destruct m as [fm km nm]. cbn [child_of lx_of kind_of] in *. subst nm.
        assert (Hml : nlt3 (meas fm km) mu).
        { apply mless_nlt in C4. destruct Hmu as [<-|Hmu]; [exact C4|].
          clear - C4 Hmu. destruct mu as [a [b c]]. unfold nlt3, nlt2 in *. cbn [fst snd] in *. lia. }
        destruct C1 as [C1 _]. apply (IH _ Hml fm km eq_refl C1).
      - destruct m as [fm km nm]. unfold child_ok in *. destruct (alters_parent _).
        + rewrite Hgi, Hgc. exact C2.
        + rewrite Hgi. exact C2. }
    split; apply Hgo; reflexivity. }
  intros f k Hmu Hn. split.
  - constructor. intros l' (t & m & Hnx & He & Hv & Hl'). cbn [next_token] in Hnx.
    pose proof (next_own_post s f k Hn) as Hp. rewrite Hnx in Hp. destruct m as [f' k' n'].
    cbn [post own_post] in Hp.
    destruct (Hown f k t f' k' n' (or_introl Hmu) Hp He Hv t) as [H1 H2].
    destruct Hl' as [-> | [u ->]]; [exact H2|].
    exact (proj1 (Hown f k t f' k' n' (or_introl Hmu) Hp He Hv u)).
  - intros m Hacc. revert f Hmu Hn. induction Hacc as [m Hacc IHm]. intros f Hmu Hn Hm Hc.
    constructor. intros l' (t & l1 & Hnx & He & Hv & Hl'). cbn [next_token] in Hnx. unfold bind in Hnx.
    destruct (next_token m) as [[tm m']| |] eqn:Em; try discriminate.
    pose proof (next_token_post s m Hm) as Hpm. rewrite Em in Hpm. cbn [post fst snd] in Hpm.
    assert (Hc' : child_ok f m') by (destruct Hpm; eapply child_step; eauto).
    destruct (is_eof (ty tm)) eqn:Eem.
    + fold (resume f m') in Hnx.
      assert (Hrn : node_ok s (resume f m') k) by (apply resume_node; [exact Hn|apply Hpm|exact Hc']).
      assert (Hrm : meas (resume f m') k = mu \/ nlt3 (meas (resume f m') k) mu).
      { rewrite <- Hmu. unfold meas, rem. rewrite resume_input, resume_size.
        pose proof (resume_idx f m' Hc'). unfold nlt3, nlt2. cbn [fst snd].
        destruct (Nat.eq_dec (l_size f - l_idx (resume f m')) (l_size f - l_idx f)) as [->|]; [left; reflexivity|].
        right. lia. }
      pose proof (next_own_post s _ k Hrn) as Hp. rewrite Hnx in Hp. destruct l1 as [f' k' n'].
      cbn [post own_post] in Hp.
      destruct Hl' as [-> | [u ->]].
      * exact (proj2 (Hown _ k t f' k' n' Hrm Hp He Hv t)).
      * exact (proj1 (Hown _ k t f' k' n' Hrm Hp He Hv u)).
    + injection Hnx as <- <-.
      assert (Hs : steps m' m) by (exists tm, m'; repeat split; auto).
      destruct Hl' as [-> | [u ->]].
      * apply (IHm m' Hs f Hmu Hn); [apply Hpm|exact Hc'].
      * cbn [record_last]. apply (IHm m' Hs (set_last f u)); [exact Hmu| |apply Hpm|].
        -- apply (node_same s f _ k); auto; [apply (no_pre _ _ _ Hn)|apply (no_kind _ _ _ Hn)].
        -- destruct m'; exact Hc'.
Qed.

Lemma ok_acc s l : ok s l -> Acc steps l.
Proof.
  induction l as [f k m IH|f k] using chain_ind; intros Hok; cbn [ok] in Hok.
  - destruct Hok as (Hn & Hm & Hc). apply (all_acc s (meas f k) f k eq_refl Hn); auto.
  - apply (all_acc s (meas f k) f k eq_refl (proj1 Hok)).
Qed.

Lemma tokens_loop_more fuel l acc skip pending r :
  tokens_loop fuel l acc skip pending = r -> r <> NoFuel ->
  forall fuel', (fuel <= fuel')%nat -> tokens_loop fuel' l acc skip pending = r.
Proof.
  revert l acc skip pending. induction fuel as [|fuel IH]; intros l acc skip pending H Hr fuel' Hf; [exfalso; apply Hr; symmetry; exact H|].
  destruct fuel' as [|fuel']; [lia|]. assert (Hf' : (fuel <= fuel')%nat) by lia.
  cbn [tokens_loop] in *. unfold bind in *.
  destruct (next_token l) as [[t l']| |]; try exact H.
  destruct (is_comment (ty t)); [eauto|].
  destruct (is_doc (ty t)); [eauto|].
  destruct (skip && is_newline (ty t)); [eauto|].
  destruct pending as [d|]; [destruct (can_have_doc (ty t)); [|destruct (negb (is_end_of_line (ty t)))]|];
    cbv beta iota in *; (destruct (is_eof _); [exact H|]); (destruct (negb (is_valid _)); [exact H|]); eauto.
Qed.

Lemma is_eof_false_cm t : is_comment t = true -> is_eof t = false /\ is_valid t = true.
Proof. destruct t; try discriminate; auto. Qed.
Lemma is_eof_false_doc t : is_doc t = true -> is_eof t = false /\ is_valid t = true.
Proof. destruct t; try discriminate; auto. Qed.
Lemma is_eof_false_nl t : is_newline t = true -> is_eof t = false /\ is_valid t = true.
Proof. destruct t; try discriminate; auto. Qed.

Lemma tokens_loop_terminates s l : Acc steps l -> ok s l -> forall acc skip pending,
  exists fuel, tokens_loop fuel l acc skip pending <> NoFuel.
Proof.
  induction 1 as [l _ IH]. intros Hok acc skip pending.
  pose proof (next_token_post s l Hok) as Hp.
  destruct (next_token l) as [[t l']| |] eqn:En.
  2:{ exists 1%nat. cbn [tokens_loop]. rewrite En. discriminate. }
  2:{ contradiction. }
  cbn [post fst snd] in Hp.
  assert (Hrec : is_eof (ty t) = false -> is_valid (ty t) = true -> forall m, (m = l' \/ exists u, m = record_last l' u) ->
     forall acc skip pending, exists fuel, tokens_loop fuel m acc skip pending <> NoFuel).
  { intros He Hv m Hm. apply IH; [exists t, l'; auto|].
    destruct Hm as [-> | [u ->]]; [apply Hp|apply ok_record, Hp]. }
  destruct (is_comment (ty t)) eqn:E1.
  { destruct (is_eof_false_cm _ E1) as [He Hv].
    destruct (Hrec He Hv l' (or_introl eq_refl) acc skip pending) as [fuel Hf].
    exists (S fuel). cbn [tokens_loop bind]. rewrite En. cbn [bind]. rewrite E1. exact Hf. }
  destruct (is_doc (ty t)) eqn:E2.
  { destruct (is_eof_false_doc _ E2) as [He Hv].
    destruct (Hrec He Hv l' (or_introl eq_refl) acc skip
      (Some (match pending with Some d => d ++ literal_or_blank t | None => literal_or_blank t end))) as [fuel Hf].
    exists (S fuel). cbn [tokens_loop bind]. rewrite En. cbn [bind]. rewrite E1, E2. exact Hf. }
  destruct (skip && is_newline (ty t)) eqn:E3.
  { destruct (is_eof_false_nl (ty t)) as [He Hv]; [apply andb_prop in E3; tauto|].
    destruct (Hrec He Hv l' (or_introl eq_refl) acc skip pending) as [fuel Hf].
    exists (S fuel). cbn [tokens_loop bind]. rewrite En. cbn [bind]. rewrite E1, E2, E3. exact Hf. }
  set (acc' := if can_follow_collapsible_newline (ty t) then pop_newlines acc else acc).
  assert (Hgo : forall u pend, ty u = ty t ->
    exists fuel, (if is_eof (ty u) then Ok (rev (u :: acc'))
     else if negb (is_valid (ty u)) then Ok (rev (u :: acc'))
     else tokens_loop fuel (record_last l' u) (u :: acc') (can_precede_collapsible_newline (ty u)) pend) <> NoFuel).
  { intros u pend Hu. destruct (is_eof (ty u)) eqn:E4; [exists 0%nat; discriminate|].
    destruct (is_valid (ty u)) eqn:E5; cbn [negb]; [|exists 0%nat; discriminate].
    rewrite Hu in E4, E5. eapply Hrec; eauto. }
  assert (exists u pend, ty u = ty t /\
    (match pending with
        | Some d =>
          if can_have_doc (ty t) then (set_doc t d, None)
          else if negb (is_end_of_line (ty t)) then (t, None)
          else (t, pending)
        | None => (t, pending)
        end = (u, pend))) as (u & pend & Hu & Eu).
  { destruct pending as [d|]; [destruct (can_have_doc (ty t)); [|destruct (negb _)]|]; eexists _, _;
      (split; [|reflexivity]); reflexivity. }
  destruct (Hgo u pend Hu) as [fuel Hf]. exists (S fuel). cbn [tokens_loop bind]. rewrite En. cbn [bind].
  rewrite E1, E2, E3. fold acc'. rewrite Eu. exact Hf.
Qed.

Lemma tokens_terminates s : bytes s -> small s ->
  exists fuel r, r <> NoFuel /\ forall fuel', (fuel <= fuel')%nat -> tokens fuel' s = r.
Proof.
  intros Hb Hs. pose proof (ok_start s Hb Hs) as Hok.
  destruct (tokens_loop_terminates s _ (ok_acc s _ Hok) Hok [] false None) as [fuel Hf].
  exists fuel, (tokens fuel s). split; [exact Hf|]. intros fuel' Hle.
  eapply tokens_loop_more; [reflexivity|exact Hf|exact Hle].
Qed.

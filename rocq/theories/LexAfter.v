(** * LexAfter: a text that follows a newline lexes as it does alone *)
From Coq Require Import Strings.String NArith ZArith Bool Arith List Lia ZifyBool ZifyNat ZifyN.
From Verif Require Import Base Token Spec SpecPlace LexModel LexBasics LexRest LexLoops LexSpec LexEsc LexHeredoc LexSwitch LexNested LexInv LexTree LexShift LexPaste LexIndent SpecLit LexFwd LexIdent LexWords LexHereFwd LexHereSrc.
Import ListNotations.
Open Scope N_scope.

(** ** What an own step leaves alone *)

Lemma advance_n_last k : forall f, l_last (advance_n k f) = l_last f /\ l_names (advance_n k f) = l_names f.
Proof. induction k as [|k IH]; intros f; [auto|]. cbn [advance_n]. destruct (IH (advance f)) as [-> ->]. auto. Qed.
Definition kids (t : ttype) (n : option lexer) : Prop :=
  match n with
  | None => True
  | Some l => is_comment t = false /\ is_doc t = false /\ (textual (kind_of l) = false -> t = T_InterpolatedRegexpBegin)
  end.
Lemma nested_kids f t n : nested_ok f t n -> kids t n.
Proof.
  destruct n as [l|]; [|intros _; exact I]. cbn [nested_ok kids].
  intros [(a & b & c & -> & _ & H)|[(a & b & -> & _ & ->)|[(a & b & c & -> & _ & H)|(a & b & -> & H & _)]]].
  - destruct H as [[-> _]|[[-> _]|[-> _]]]; repeat split; discriminate.
  - repeat split.
  - destruct c, H as [->| ->]; repeat split; discriminate.
  - destruct H as [[-> _]|[[-> _]|[-> _]]]; repeat split; discriminate.
Qed.
Definition kept (f : lx) (p : bres) : Prop :=
  let '(t, f', n) := p in l_last f' = l_last f /\ l_names f' = l_names f /\ kids (ty t) n.
Lemma switch_last f p : pre f -> lex_switch f = Ok p -> kept f p.
Proof.
  destruct p as [[t f'] n]. intros Hp E. pose proof (lex_switch_post f Hp) as H. rewrite E in H. cbn [post step_ok] in H.
  destruct H as (_ & (k & _ & h & b & -> & _) & H). apply nested_kids in H. cbn [kept set_ternary set_heredocs l_last l_names].
  destruct (advance_n_last k f) as [-> ->]. auto.
Qed.
Lemma base_last s f p : node_ok s f KBase -> build_base f = Ok p -> kept f p.
Proof.
  intros Hn. pose proof (no_pre _ _ _ Hn) as Hp. rewrite build_base_eq. destruct p as [[t f'] n].
  destruct (_ <=? _)%nat; [intros E; injection E as <- <- <-; repeat split|].
  assert (D : forall d, pre (set_depth f d)) by (intros d; destruct Hp; split; assumption).
  destruct (negb (l_start f =? 0) && _); [intros E; apply switch_last in E; [exact E|apply D]|].
  destruct (negb (l_stop f =? 0) && _).
  { destruct (l_depth f); [intros E; injection E as <- <- <-; repeat split|intros E; apply switch_last in E; [exact E|apply D]]. }
  destruct (_ && _); [|intros E; apply switch_last in E; [exact E|exact Hp]].
  assert (P : forall g, pre g -> pre (advance g)).
  { intros g Hg. eapply nr_pre; [apply nr_adv, (adv_advance_n 1 g)|exact Hg]. }
  intros E. apply switch_last in E.
  - cbn [kept] in *. destruct E as (E1 & E2 & E3). rewrite E1, E2. unfold past_mark. cbv zeta.
    destruct (_ =? 0xBB), (_ =? 0xBF); auto.
  - unfold past_mark. cbv zeta. destruct (_ =? 0xBB), (_ =? 0xBF); auto.
Qed.
Lemma skip_last fuel : forall f fl b g, skip_ws_loop fuel f fl = Ok (b, g) -> l_last g = l_last f /\ l_names g = l_names f.
Proof.
  induction fuel as [|fuel IH]; intros f fl b g; [discriminate|]. cbn [skip_ws_loop].
  destruct (_ || _); [|intros E; injection E as _ <-; auto].
  intros E. apply IH in E. destruct E as [-> ->]. destruct (_ =? ch_bs); auto.
Qed.
Lemma own_last s f t f' k' n : node_ok s f KBase -> next_own f KBase = Ok (t, Lexer f' k' n) ->
  l_last f' = l_last f /\ l_names f' = update_names (l_names f) (ty t) /\ kids (ty t) n.
Proof.
  intros Hn. unfold next_own. cbn [skip_ws]. unfold skip_whitespace.
  pose proof (skip_ws_post (crash_ev s) f KBase) as Hg. cbn [skip_ws] in Hg. unfold skip_whitespace in Hg.
  destruct (skip_ws_loop _ _ _) as [[b g]| |] eqn:Es; [|discriminate..]. cbn [bind post snd] in *. cbv zeta.
  assert (Hgn : node_ok s g KBase).
  { eapply mv_node; [apply mv_nr; [apply nr_adv; exact Hg|apply (no_pre _ _ _ Hn)]|exact Hn|apply (no_kind _ _ _ Hn)]. }
  assert (Hhn : node_ok s (set_tokpos g b) KBase).
  { apply (node_same s g _ KBase); [reflexivity|reflexivity|reflexivity| | |exact Hgn]; [apply (no_pre _ _ _ Hgn)|apply (no_kind _ _ _ Hgn)]. }
  cbn [build]. destruct (build_base (set_tokpos g b)) as [[[u h] m]| |] eqn:Eb; cbn [bind]; [|discriminate..].
  intros E. injection E as <- <- _ <-. apply skip_last in Es. destruct Es as [E1 E2].
  apply (base_last s) in Eb; [|exact Hhn]. destruct Eb as (E3 & E4 & E5). cbn [set_names l_last l_names].
  change (l_last (set_tokpos g b)) with (l_last g) in E3. change (l_names (set_tokpos g b)) with (l_names g) in E4.
  split; [congruence|]. split; [congruence|]. exact E5.
Qed.

(** ** The head of the token vector *)

Lemma pop_last acc (u : token) : is_newline (ty u) = false -> exists acc', pop_newlines (acc ++ [u]) = acc' ++ [u].
Proof.
  intros E. induction acc as [|t acc IH]; cbn [app pop_newlines].
  - rewrite E. exists []. reflexivity.
  - destruct (is_newline (ty t)); [exact IH|]. exists (t :: acc). reflexivity.
Qed.
Lemma pop_shape acc (u : token) : pop_newlines (acc ++ [u]) = [] \/ exists acc', pop_newlines (acc ++ [u]) = acc' ++ [u].
Proof. destruct (pop_head acc u u eq_refl) as [[H _]|(a & H & _)]; eauto. Qed.
Lemma loop_keeps fuel u : is_newline (ty u) = false -> forall l acc skip pending ts,
  tokens_loop fuel l (acc ++ [u]) skip pending = Ok ts -> hd u ts = u.
Proof.
  intros Hu. induction fuel as [|fuel IH]; intros l acc skip pending ts; [discriminate|]. cbn [tokens_loop].
  destruct (next_token l) as [[t l']| |]; cbn [bind]; [|discriminate..].
  destruct (is_comment (ty t)); [apply IH|]. destruct (is_doc (ty t)); [apply IH|]. destruct (skip && is_newline (ty t)); [apply IH|].
  match goal with |- (let '(_, _) := ?q in _) = _ -> _ => destruct q as [v pend] end.
  assert (X : exists a, (if can_follow_collapsible_newline (ty t) then pop_newlines (acc ++ [u]) else acc ++ [u]) = a ++ [u]).
  { destruct (can_follow_collapsible_newline _); [apply pop_last; exact Hu|eauto]. }
  destruct X as [a ->].
  assert (R : hd u (rev (v :: a ++ [u])) = u) by (cbn [rev]; rewrite rev_app_distr; reflexivity).
  destruct (is_eof (ty v)); [intros E; injection E as <-; exact R|]. destruct (negb _); [intros E; injection E as <-; exact R|].
  rewrite app_comm_cons. apply IH.
Qed.
Lemma loop_newline fuel u : forall l acc skip pending ts, is_newline (ty u) = true ->
  tokens_loop fuel l (acc ++ [u]) skip pending = Ok ts ->
  is_newline (ty (hd u ts)) = true \/ can_follow_collapsible_newline (ty (hd u ts)) = true.
Proof.
  intros l acc skip pending ts Hu. revert l acc skip pending ts.
  induction fuel as [|fuel IH]; intros l acc skip pending ts; [discriminate|]. cbn [tokens_loop].
  destruct (next_token l) as [[t l']| |]; cbn [bind]; [|discriminate..].
  destruct (is_comment (ty t)); [apply IH|]. destruct (is_doc (ty t)); [apply IH|]. destruct (skip && is_newline (ty t)); [apply IH|].
  match goal with |- (let '(_, _) := ?q in _) = _ -> _ => destruct q as [v pend] eqn:Eq end.
  assert (Ev : ty v = ty t).
  { destruct pending; [destruct (can_have_doc (ty t)); [|destruct (negb (is_end_of_line (ty t)))]|]; injection Eq as <- _; reflexivity. }
  clear Eq.
  assert (D : forall a, can_follow_collapsible_newline (ty v) = true /\ a = [] \/ (exists a', a = a' ++ [u]) ->
    (if is_eof (ty v) then Ok (rev (v :: a)) else if negb (is_valid (ty v)) then Ok (rev (v :: a))
     else tokens_loop fuel (record_last l' v) (v :: a) (can_precede_collapsible_newline (ty v)) pend) = Ok ts ->
    is_newline (ty (hd u ts)) = true \/ can_follow_collapsible_newline (ty (hd u ts)) = true).
  { intros a [[Hf ->]|[a' ->]].
    - destruct (is_eof (ty v)); [intros E; injection E as <-; right; exact Hf|].
      destruct (negb _); [intros E; injection E as <-; right; exact Hf|].
      intros E. right. destruct (is_newline (ty v)) eqn:En.
      + destruct (ty v); discriminate.
      + pose proof (loop_keeps fuel v En _ [] _ _ ts E) as K. destruct ts as [|x ts]; [destruct (tokens_loop_nonempty _ _ _ _ _ E)|].
        cbn [hd] in *. congruence.
    - assert (R : hd u (rev (v :: a' ++ [u])) = u) by (cbn [rev]; rewrite rev_app_distr; reflexivity).
      assert (R' : is_newline (ty (hd u (rev (v :: a' ++ [u])))) = true) by (rewrite R; exact Hu).
      destruct (is_eof (ty v)); [intros E; injection E as <-; left; exact R'|].
      destruct (negb _); [intros E; injection E as <-; left; exact R'|].
      rewrite app_comm_cons. apply IH. }
  rewrite <- Ev. destruct (can_follow_collapsible_newline (ty v)) eqn:Ef; apply D.
  - destruct (pop_shape acc u) as [->|[a' ->]]; [left; auto|right; eauto].
  - right. eauto.
Qed.

Lemma pushed fuel l' v skip pend ts :
  (if is_eof (ty v) then Ok (rev [v]) else if negb (is_valid (ty v)) then Ok (rev [v])
   else tokens_loop fuel (record_last l' v) [v] skip pend) = Ok ts ->
  exists u, hd_error ts = Some u /\ (ty u = ty v \/ is_newline (ty u) = true \/ can_follow_collapsible_newline (ty u) = true).
Proof.
  destruct (is_eof (ty v)); [intros E; injection E as <-; exists v; auto|].
  destruct (negb _); [intros E; injection E as <-; exists v; auto|].
  intros E. destruct ts as [|u ts]; [destruct (tokens_loop_nonempty _ _ _ _ _ E)|].
  exists u. split; [reflexivity|]. destruct (is_newline (ty v)) eqn:Ev.
  - right. exact (loop_newline fuel v (record_last l' v) [] skip pend (u :: ts) Ev E).
  - left. pose proof (loop_keeps fuel v Ev (record_last l' v) [] skip pend (u :: ts) E) as H. cbn [hd] in H. congruence.
Qed.

Lemma base_kind f t g k n : next_own f KBase = Ok (t, Lexer g k n) -> k = KBase.
Proof.
  unfold next_own. cbn [skip_ws build]. destruct (skip_whitespace f) as [[b h]| |]; cbn [bind]; [|discriminate..]. cbv zeta.
  destruct (build_base _) as [[[u h'] m]| |]; cbn [bind]; [|discriminate..]. intros E. injection E as _ _ <- _. reflexivity.
Qed.

(** ** Behind a newline *)

Definition lfn (t : ttype) : ttype := match t with T_Invalid => T_Newline | _ => t end.
Notation it := (fun t : ttype => t).

Section after.
Variables (s pre : str) (dl : nat).
Hypothesis Hmark : pre = [] \/ nth 0 s 0 <> 0xEF.
Notation sg := (sht dl 0 idb).
Notation view1 f := (view pre dl 0 lfn f).
Notation view2 f := (view [] 0 0 it f).

Record fresh (f1 f2 : lx) : Prop := {
  fr_node : node_ok s f1 KBase; fr_input : l_input f1 = s; fr_last : ty (l_last f1) = T_Invalid;
  fr_names : n_rem (l_names f1) = 0; fr_sep : n_sep (l_names f1) = T_Invalid; fr_view : view1 f1 = view2 f2 }.

Lemma view_last lf f1 f2 t t' : ty t' = ty t -> view1 f1 = view2 f2 ->
  view pre dl 0 lf (set_last f1 t) = view [] 0 0 lf (set_last f2 t').
Proof.
  intros Et E. unfold view, clear, sh, kind_only in *. cbn [set_last l_input l_size l_cur l_heredocs l_last l_ternary l_stop l_start l_depth l_names] in *.
  rewrite Et. f_equal.
  - exact (f_equal l_input E).
  - exact (f_equal l_size E).
  - exact (f_equal l_cur E).
  - exact (f_equal l_heredocs E).
  - exact (f_equal l_ternary E).
  - exact (f_equal l_stop E).
  - exact (f_equal l_start E).
  - exact (f_equal l_depth E).
  - exact (f_equal l_names E).
Qed.

Lemma fresh_step f1 f2 : fresh f1 f2 ->
  mapr (so pre dl 0 idb lfn) (next_own f1 KBase) = mapr (so [] 0 0 idb it) (next_own f2 KBase).
Proof.
  intros [Hn Hi Hl Hm Hs Hv]. apply own_view; [|left; reflexivity|exact Hv].
  intros b g E.
  pose proof (ready_away s pre 0 Hmark (or_introl eq_refl) false f1 KBase Hn (conj (fun _ => Hi) (fun H => False_ind _ (Bool.diff_false_true H))) b g E) as R.
  cbn [skip_ws] in E. apply skip_last in E. destruct E as [E1 E2].
  destruct R as (_ & _ & R3 & R4). split; [|split; [left; reflexivity|split; [exact R3|exact R4]]].
  right. change (l_last (set_tokpos g b)) with (l_last g). change (l_names (set_tokpos g b)) with (l_names g).
  rewrite E1, E2. repeat split; assumption.
Qed.

Lemma loop_after fuel base : forall f1 f2 skip pending ts, fresh f1 f2 ->
  tokens_loop fuel (Lexer f1 KBase None) [] false pending = Ok ts ->
  (forall u, hd_error ts = Some u -> is_newline (ty u) = false /\ can_follow_collapsible_newline (ty u) = false
     /\ ty u <> T_InterpolatedRegexpBegin) ->
  tokens_loop fuel (Lexer f2 KBase None) base skip pending = Ok (rev base ++ map sg ts).
Proof.
  induction fuel as [|fuel IH]; intros f1 f2 skip pending ts Hf; [discriminate|]. cbn [tokens_loop next_token].
  pose proof (fresh_step f1 f2 Hf) as E. destruct Hf as [Hn Hi Hl Hm Hs Hv].
  destruct (next_own f1 KBase) as [[t1 [g1 k1 n1]]| |] eqn:E1; [|discriminate..].
  destruct (next_own f2 KBase) as [[t2 [g2 k2 n2]]| |] eqn:E2; cbn [mapr] in E; try discriminate E. cbn [bind].
  apply (f_equal (fun r => match r with Ok p => p | _ => so pre dl 0 idb lfn (t1, Lexer g1 k1 n1) end)) in E.
  destruct (own_last s f1 t1 g1 k1 n1 Hn E1) as (L1 & L2 & L3).
  pose proof (next_own_post s f1 KBase Hn) as Hpost. rewrite E1 in Hpost. cbn [post own_post] in Hpost.
  intros Ets Hhead.
  assert (Hreg : ty t1 = T_InterpolatedRegexpBegin -> False).
  { intros Et. rewrite Et in Ets. change (is_comment T_InterpolatedRegexpBegin) with false in Ets.
    change (is_doc T_InterpolatedRegexpBegin) with false in Ets. cbn [andb pop_newlines] in Ets.
    change (can_follow_collapsible_newline T_InterpolatedRegexpBegin) with false in Ets.
    match type of Ets with (let '(_, _) := ?q in _) = _ => destruct q as [v pend] eqn:Eq end.
    assert (Ev : ty v = ty t1).
    { destruct pending; [destruct (can_have_doc _); [|destruct (negb _)]|]; injection Eq as <- _; reflexivity. }
    apply pushed in Ets. destruct Ets as (u & U1 & U2). destruct (Hhead u U1) as (U3 & U4 & U5).
    destruct U2 as [U2|[U2|U2]]; congruence. }
  destruct (own_done s pre dl 0 Hmark (or_introl eq_refl) false idb lfn it f1 KBase t1 g1 k1 n1 t2 g2 k2 n2 Hn) as (H1 & H2 & H3 & H4 & H5 & H6);
    [split; [intros _; exact Hi|discriminate]|exact E1|exact E| |].
  { intros m1 m2 -> _ _. cbn [kids] in L3. destruct L3 as (_ & _ & L3). unfold lfk.
    destruct (textual (kind_of m1)); [reflexivity|]. destruct (Hreg (L3 eq_refl)). }
  subst t2 k2. change (ty (sg t1)) with (ty t1). change (literal_or_blank (sg t1)) with (literal_or_blank t1).
  assert (Hok : ok s (Lexer g1 k1 n1)).
  { split; [exact (ow_node _ _ _ _ _ _ _ Hpost)|]. destruct n1 as [m0|]; [|exact I].
    destruct (ow_child _ _ _ _ _ _ _ Hpost m0 eq_refl) as (X1 & X2 & _). auto. }
  assert (Again : is_comment (ty t1) = true \/ is_doc (ty t1) = true -> k1 = KBase /\ n1 = None /\ n2 = None /\ fresh g1 g2).
  { intros Hc. assert (En : n1 = None).
    { destruct n1; [|reflexivity]. destruct L3 as (X1 & X2 & _). destruct Hc; congruence. } subst n1.
    destruct n2; [destruct H6|]. assert (Ek : k1 = KBase) by exact (base_kind _ _ _ _ _ E1). subst k1.
    split; [reflexivity|]. split; [reflexivity|]. split; [reflexivity|]. split.
    - exact (ow_node _ _ _ _ _ _ _ Hpost).
    - apply H4. reflexivity.
    - rewrite L1. exact Hl.
    - rewrite L2. assert (Et : ty t1 = T_Comment \/ ty t1 = T_Doc) by (destruct (ty t1); destruct Hc as [Hc|Hc]; try discriminate Hc; auto).
      destruct Et as [-> | ->]; cbn [update_names]; rewrite Hs, Hm; reflexivity.
    - rewrite L2. assert (Et : ty t1 = T_Comment \/ ty t1 = T_Doc) by (destruct (ty t1); destruct Hc as [Hc|Hc]; try discriminate Hc; auto).
      destruct Et as [-> | ->]; cbn [update_names]; rewrite Hs, Hm; reflexivity.
    - exact H5. }
  destruct (is_comment (ty t1)) eqn:Ec.
  { destruct (Again (or_introl eq_refl)) as (-> & -> & -> & Hf). apply (IH g1 g2 skip pending ts Hf Ets Hhead). }
  destruct (is_doc (ty t1)) eqn:Ed.
  { destruct (Again (or_intror eq_refl)) as (-> & -> & -> & Hf). apply (IH g1 g2 skip _ ts Hf Ets Hhead). }
  cbn [andb] in *.
  set (q := match pending with
            | Some d => if can_have_doc (ty t1) then (set_doc t1 d, None) else if negb (is_end_of_line (ty t1)) then (t1, None) else (t1, pending)
            | None => (t1, pending) end) in *.
  replace (match pending with
           | Some d => if can_have_doc (ty t1) then (set_doc (sg t1) d, None)
               else if negb (is_end_of_line (ty t1)) then (sg t1, None) else (sg t1, pending)
           | None => (sg t1, pending) end) with (sg (fst q), snd q).
  2: { unfold q. destruct pending; [|reflexivity]. destruct (can_have_doc _); [reflexivity|]. destruct (negb _); reflexivity. }
  assert (Ev : ty (fst q) = ty t1).
  { unfold q. destruct pending; [destruct (can_have_doc _); [|destruct (negb _)]|]; reflexivity. }
  destruct q as [v pend]. cbn [fst snd] in *. cbn [pop_newlines] in Ets.
  replace (if can_follow_collapsible_newline (ty t1) then [] else []) with (@nil token) in Ets by (destruct (can_follow_collapsible_newline _); reflexivity).
  assert (Hv1 : is_newline (ty v) = false /\ can_follow_collapsible_newline (ty v) = false).
  { destruct (is_newline (ty v)) eqn:En.
    - exfalso. destruct (is_eof (ty v)) eqn:Ee; [destruct (ty v); discriminate|]. destruct (negb (is_valid (ty v))) eqn:Ei; [destruct (ty v); discriminate|].
      destruct ts as [|u ts]; [destruct (tokens_loop_nonempty _ _ _ _ _ Ets)|].
      destruct (loop_newline fuel v (record_last (Lexer g1 k1 n1) v) [] _ pend (u :: ts) En Ets) as [X|X]; cbn [hd] in X;
        destruct (Hhead u eq_refl) as (U3 & U4 & _); congruence.
    - split; [reflexivity|]. destruct (is_eof (ty v)) eqn:Ee; [destruct (ty v); discriminate || reflexivity|].
      destruct (negb (is_valid (ty v))) eqn:Ei; [destruct (ty v); discriminate || reflexivity|].
      destruct ts as [|u ts]; [destruct (tokens_loop_nonempty _ _ _ _ _ Ets)|].
      pose proof (loop_keeps fuel v En _ [] _ pend (u :: ts) Ets) as X. cbn [hd] in X. subst u. apply (Hhead v eq_refl). }
  rewrite Ev in Hv1. destruct Hv1 as [Hv1 Hv2]. rewrite Hv1, Hv2, andb_false_r. change (ty (sg v)) with (ty v).
  destruct (is_eof (ty v)); [injection Ets as <-; reflexivity|]. destruct (negb (is_valid (ty v))); [injection Ets as <-; reflexivity|].
  pose proof (loop_rel s pre dl 0 Hmark (or_introl eq_refl) fuel (record_last (Lexer g1 k1 n1) v) (record_last (Lexer g2 k1 n2) (sg v)) [v] base
    (can_precede_collapsible_newline (ty v)) pend) as X.
  change (sg v :: base) with (map sg [v] ++ base). rewrite X.
  - rewrite Ets. reflexivity.
  - apply ok_record. exact Hok.
  - cbn [rel record_last]. split; [reflexivity|]. split; [exact H4|]. split; [|exact H6]. apply (view_last (lfk k1)); [reflexivity|exact H5].
  - right. constructor. rewrite Ev. exact Hv1.
Qed.
End after.

(** The lexer at the beginning of a line, with nothing open. *)
Definition at_line (p s : str) (n tl tc : nat) (ws : bool) (last : token) : lx :=
  Lx (p ++ s) (length (p ++ s)) (Cur (length p) n 0) [] tl tc ws last false 0 0 0 names0.

Lemma after_newline p s n tl tc ws last base fuel skip ts :
  ty last = T_Newline -> bytes s -> small s -> p = [] \/ nth 0 s 0 <> 0xEF -> tokens fuel s = Ok ts ->
  (forall u, hd_error ts = Some u -> is_newline (ty u) = false /\ can_follow_collapsible_newline (ty u) = false
     /\ ty u <> T_InterpolatedRegexpBegin) ->
  tokens_loop fuel (Lexer (at_line p s n tl tc ws last) KBase None) base skip None = Ok (rev base ++ map (moved n 0) ts).
Proof.
  intros Hl Hb Hs Hm E Hh. rewrite (map_ext (moved n 0) (sht n 0 idb)) by (intros u; symmetry; apply sht_moved).
  apply (loop_after s p n Hm fuel base (new_lx s)); [|exact E|exact Hh]. split; try reflexivity.
  - apply (ok_start s Hb Hs).
  - unfold view, clear, sh, kind_only, at_line, new_lx, scur, scol. cbn [l_input l_size l_cur l_heredocs l_last l_ternary l_stop l_start l_depth l_names c_idx c_line c_col map no_token ty].
    rewrite Hl, app_length. cbn [lfn plus Nat.eqb length]. rewrite !Nat.add_0_r. destruct n; reflexivity.
Qed.

Lemma plain_line w : Forall (fun d => d <> ch_nl) w -> newlines w = 0%nat /\ forall n, since_newline w n = (n + length w)%nat.
Proof.
  induction 1 as [|d w Hd Hw [IH1 IH2]]; [split; [reflexivity|intros n; cbn; lia]|].
  cbn [newlines since_newline length]. apply N.eqb_neq in Hd. rewrite Hd. split; [exact IH1|]. intros n. rewrite IH2. lia.
Qed.
Lemma word_then c w s fuel ts :
  ident_start c -> c <> 0xEF -> Forall ident_char w -> (forall t, ~ In (c :: w, t) reserved) ->
  bytes s -> small s -> nth 0 s 0 <> 0xEF -> tokens fuel s = Ok ts ->
  (forall u, hd_error ts = Some u -> is_newline (ty u) = false /\ can_follow_collapsible_newline (ty u) = false
     /\ ty u <> T_InterpolatedRegexpBegin) ->
  tokens (S (S fuel)) ((c :: w) ++ ch_nl :: s) =
    Ok (Tok (if between "A"%ch "Z"%ch c then T_Constant else T_BareName) (Some (c :: w)) None 0 [] 0 0 false ::
        Tok T_Newline None None 0 [] 0 (length (c :: w)) false :: map (moved 1 0) ts).
Proof.
  intros Hc He Hw Hk Hb Hs Hm E Hh.
  set (src := (c :: w) ++ ch_nl :: s). set (f0 := set_tokpos (new_lx src) false).
  assert (Hat : at_text f0 (c :: w ++ ch_nl :: s)) by (split; reflexivity).
  assert (Hl : lex_switch f0 = Ok (tkl f0 (if between "A"%ch "Z"%ch c then T_Constant else T_BareName) (c :: w), advance_n (S (length w)) f0, None)).
  { apply (lex_ident_fwd f0 c w (ch_nl :: s)); auto; try discriminate.
    - apply ident_start_name. exact Hc.
    - eapply Forall_impl; [|exact Hw]. apply ident_char_ok.
    - intros [t Ht]. apply (Hk t). apply reserved_keywords. exact Ht. }
  assert (Nl : Forall (fun d => d <> ch_nl) (c :: w)).
  { constructor; [intros ->; unfold ident_start, ch_nl in Hc; lia|]. eapply Forall_impl; [|exact Hw].
    intros d Hd ->. unfold ident_char, ident_start, ch_nl in Hd. lia. }
  set (g := advance_n (S (length w)) f0) in *.
  assert (G : g = Lx src (length src) (Cur (S (length w)) 0 (S (length w))) [] 0 0 false no_token false 0 0 0 names0).
  { unfold g. rewrite (advance_n_frame (S (length w)) f0). unfold f0 at 1.
    rewrite (pos_advance_n src); [|reflexivity|reflexivity|reflexivity]. change (l_idx f0 + S (length w))%nat with (length (c :: w)).
    unfold src, pos_of, line_of, col_of. rewrite firstn_app, firstn_all, Nat.sub_diag. cbn [firstn]. rewrite app_nil_r.
    destruct (plain_line (c :: w) Nl) as [-> Hn]. rewrite Hn.
    replace (length (c :: w) - length ((c :: w) ++ ch_nl :: s))%nat with 0%nat by (rewrite app_length; lia).
    replace (0 + length (c :: w) + 0)%nat with (S (length w)) by (cbn [length]; lia). reflexivity. }
  assert (Hg : at_text g (ch_nl :: s)) by (unfold g; change (c :: w ++ ch_nl :: s) with ((c :: w) ++ ch_nl :: s) in Hat; apply (at_adv_n f0 (c :: w)); exact Hat).
  unfold tokens. erewrite loop_plain; cycle 1.
  { cbn [next_token]. unfold next_own at 1. cbn [skip_ws].
    rewrite (skip_ws_none _ _ (at_new src)); [|unfold src; cbn [app hd tl]..]. cbn [bind build]. fold f0.
    rewrite (build_base_top f0 c (w ++ ch_nl :: s)); [|exact Hat|reflexivity|reflexivity|left; exact He].
    rewrite Hl. reflexivity.
    - intros ->. unfold ident_start in Hc. lia.
    - intros ->. unfold ident_start, ch_tab in Hc. lia.
    - left. intros ->. unfold ident_start, ch_bs in Hc. lia. }
  1-6: destruct (between _ _ _); reflexivity.
  set (t1 := tkl f0 _ _). cbn [record_last]. set (h := set_last _ _).
  assert (Hh' : at_text h (ch_nl :: s)) by (destruct Hg; split; assumption).
  replace (can_precede_collapsible_newline (ty t1)) with false by (unfold t1; cbn [ty tkl]; destruct (between _ _ _); reflexivity).
  erewrite loop_plain; cycle 1.
  { cbn [next_token]. unfold next_own at 1. cbn [skip_ws]. rewrite (skip_ws_none _ _ Hh'); try discriminate; [|left; discriminate]. cbn [bind build].
    rewrite (build_base_top _ ch_nl s); [|apply at_tokpos; exact Hh'|unfold h; rewrite G; reflexivity|unfold h; rewrite G; reflexivity|left; discriminate].
    rewrite (lex_newline _ s) by (apply at_tokpos; exact Hh').
    replace (l_heredocs (set_tokpos h false)) with (@nil nat) by (unfold h; rewrite G; reflexivity). reflexivity. }
  all: try reflexivity.
  cbn [record_last]. set (t2 := tk (advance (set_tokpos h false)) T_Newline). set (e := set_last _ _).
  assert (E1 : advance (set_tokpos h false) = set_cur (set_tokpos h false) (Cur (S (S (length w))) 1 0)).
  { unfold advance. rewrite (at_cur (set_tokpos h false) ch_nl s) by (apply at_tokpos; exact Hh').
    change (ch_nl =? ch_nl) with true. cbv iota. unfold h. rewrite G. reflexivity. }
  assert (E2 : e = at_line ((c :: w) ++ [ch_nl]) s 1 0 (S (length w)) false t2).
  { unfold e. rewrite E1. unfold h. rewrite G. unfold at_line.
    replace (((c :: w) ++ [ch_nl]) ++ s) with src by (unfold src; rewrite <- app_assoc; reflexivity).
    replace (length ((c :: w) ++ [ch_nl])) with (S (S (length w))) by (rewrite app_length; cbn [length]; lia).
    unfold t1. cbn [ty tkl]. destruct (between _ _ _); reflexivity. }
  rewrite E2.
  rewrite (after_newline _ s 1 _ _ _ t2 [t2; t1] fuel _ ts); auto. cbn [rev app]. do 2 f_equal. f_equal.
  unfold t2. rewrite E1. unfold h. rewrite G. reflexivity.
Qed.

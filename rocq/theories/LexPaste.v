(** * LexPaste: two lexers on the same text at different places *)
From Coq Require Import Strings.String NArith ZArith Bool Arith List Lia ZifyBool ZifyNat ZifyN.
From Verif Require Import Base Token Spec LexModel LexBasics LexRest LexLoops LexSpec LexEsc LexHeredoc LexSwitch LexNested LexInv LexTree LexShift.
Import ListNotations.
Open Scope N_scope.

(** What the last token left behind is not looked at by the next one. *)
Definition clear (f : lx) : lx :=
  Lx (l_input f) (l_size f) (l_cur f) (l_heredocs f) 0 0 false (l_last f) (l_ternary f) (l_stop f) (l_start f) (l_depth f) (l_names f).
Lemma clear_advance f : advance (clear f) = clear (advance f).
Proof. unfold advance. change (current_char (clear f)) with (current_char f). destruct (_ =? ch_nl); reflexivity. Qed.
Lemma clear_skip_loop fuel : forall f b,
  skip_ws_loop fuel (clear f) b = mapr (fun p => (fst p, clear (snd p))) (skip_ws_loop fuel f b).
Proof.
  induction fuel as [|fuel IH]; intros f b; [reflexivity|]. cbn [skip_ws_loop]. rewrite !clear_advance.
  change (current_char (clear f)) with (current_char f). change (peek (clear f)) with (peek f).
  destruct (_ || _); [|reflexivity]. destruct (_ =? ch_bs); apply IH.
Qed.
Lemma next_own_clear f k : next_own (clear f) k = next_own f k.
Proof.
  unfold next_own. destruct k; cbn [skip_ws]; try reflexivity.
  unfold skip_whitespace. change (loop_fuel (clear f)) with (loop_fuel f). rewrite clear_skip_loop.
  destruct (skip_ws_loop _ _ _) as [[b g]| |]; reflexivity.
Qed.

(** ** Lines only grow *)

Lemma own_line s f k t f' k' n' : node_ok s f k -> next_own f k = Ok (t, Lexer f' k' n') ->
  (c_line (l_cur f) <= c_line (l_cur f'))%nat /\ (c_line (l_cur f) <= tk_line t)%nat /\
  forall m, n' = Some m -> if alters_parent m then l_cur (lx_of m) = l_cur f' else (0 < c_line (l_cur (lx_of m)))%nat.
Proof.
  intros Hn. assert (H : post (crash_ev s) (next_own f k) (fun p => let '(t, Lexer f' k' n') := p in
    (c_line (l_cur f) <= c_line (l_cur f'))%nat /\ (c_line (l_cur f) <= tk_line t)%nat /\
    forall m, n' = Some m -> if alters_parent m then l_cur (lx_of m) = l_cur f' else (0 < c_line (l_cur (lx_of m)))%nat)).
  2: { intros E. rewrite E in H. exact H. }
  unfold next_own. apply post_bind.
  eapply post_weaken; [apply skip_ws_post | exact (fun _ H => H) |].
  intros [ws g] Hg; cbn [snd] in Hg. cbv zeta.
  set (h := set_tokpos g ws).
  assert (Hgn : node_ok s g k).
  { eapply mv_node; [apply mv_nr; [apply nr_adv; exact Hg|apply (no_pre _ _ _ Hn)]|exact Hn|apply (no_kind _ _ _ Hn)]. }
  assert (Hhn : node_ok s h k).
  { apply (node_same s g _ k); [reflexivity|reflexivity|reflexivity| | |exact Hgn]; [apply (no_pre _ _ _ Hgn)|apply (no_kind _ _ _ Hgn)]. }
  assert (Hfh : (c_line (l_cur f) <= c_line (l_cur h))%nat).
  { destruct (nr_cur _ _ _ (nr_adv _ _ _ Hg)) as (j & _ & Hj). change (l_cur h) with (l_cur g). rewrite Hj. apply advance_n_line. }
  assert (Hl : l_tline h = c_line (l_cur h)) by auto.
  clearbody h. clear g Hg Hgn ws. apply post_bind.
  assert (Hli : lines_of s (l_input h)) by apply (no_lines _ _ _ Hhn).
  assert (Htok : forall t, tok_ok h t -> (c_line (l_cur h) <= tk_line t)%nat).
  { intros u [_ _ [[H _]|(j & H & _)] _]; [lia|]. rewrite H. apply advance_n_line. }
  assert (Hb : post (crash_ev s) (build h k) (fun p => let '(t, f', k', n') := p in
    (c_line (l_cur h) <= c_line (l_cur f'))%nat /\ (c_line (l_cur h) <= tk_line t)%nat /\
    forall m, n' = Some m -> if alters_parent m then l_cur (lx_of m) = l_cur f' else (0 < c_line (l_cur (lx_of m)))%nat)).
  { assert (Hnest : forall m, post (crash_ev (l_input h)) m (kstep_ok h k) ->
      post (crash_ev s) m (fun p => let '(t, f', k', n') := p in
        (c_line (l_cur h) <= c_line (l_cur f'))%nat /\ (c_line (l_cur h) <= tk_line t)%nat /\
        forall m, n' = Some m -> if alters_parent m then l_cur (lx_of m) = l_cur f' else (0 < c_line (l_cur (lx_of m)))%nat)).
    { intros m Hm. eapply post_weaken; [exact Hm|intros r; apply crash_ev_lines, Hli|].
      intros [[[u f1] k1] n1] (H1 & H2 & H3 & _). split; [|split; [apply Htok; exact H1|]].
      - destruct (nr_cur _ _ _ H2) as (j & _ & Hj). rewrite Hj. apply advance_n_line.
      - intros m0 Hm0. destruct H3; try discriminate; injection Hm0 as <-; reflexivity. }
    pose proof Hhn as [[Hw Hby _ _] _ _ Hk _].
    destruct k; cbn [build].
    - apply post_bind. eapply post_weaken; [apply (build_base_post s); exact Hhn | intros r; apply crash_ev_lines, Hli |].
      intros [[u f1] n1]. cbn [post]. intros [(H1 & H2 & H3 & H4)|(-> & -> & ->)].
      + split; [|split; [apply Htok; exact H1|]].
        * destruct H2 as (_ & _ & _ & j & _ & Hj). rewrite Hj. apply advance_n_line.
        * intros m ->. destruct H4 as [(st & sp & et & -> & _)|[(st & sp & -> & _)|[(st & sp & it & -> & _)|(body & et & -> & _)]]];
            try reflexivity. cbn. lia.
      + split; [lia|]. split; [cbn; lia|discriminate].
    - apply Hnest. apply build_str_post; auto.
    - apply Hnest. eapply post_weaken; [apply build_regexp_post; auto|exact (fun _ H => H)|]. intros a H. apply H.
    - apply Hnest. eapply post_weaken; [apply build_words_post; auto|exact (fun _ H => H)|]. intros a H. apply H. }
  eapply post_weaken; [exact Hb|exact (fun _ H => H)|].
  intros [[[u f1] k1] n1] (H1 & H2 & H3). cbn [post]. split; [|split; [|exact H3]]; [change (c_line (l_cur (set_names f1 (update_names (l_names f1) (ty u))))) with (c_line (l_cur f1))|]; lia.
Qed.

(** ** Lexers of interpolated code start afresh *)

Lemma str_loop_child fuel : forall f et al buf t g k m, str_loop fuel f et al buf = Ok (t, g, k, Some m) -> l_last (lx_of m) = no_token.
Proof.
  induction fuel as [|fuel IH]; intros f et al buf t g k m; [discriminate|]. cbn [str_loop]. cbv zeta.
  destruct (_ =? 0); [destruct (_ =? 0); discriminate|].
  destruct (_ && _). { destruct (consume_escaped_byte _ _) as [[[[e|] b] g']| |]; [discriminate|apply IH|discriminate..]. }
  destruct (_ && _). { destruct buf; [|discriminate]. unfold str_start_evaluation. intros E. injection E as _ _ _ <-. reflexivity. }
  destruct (_ && _); [apply IH|]. destruct (_ =? l_stop f); [|apply IH].
  destruct (l_depth _); [destruct buf; discriminate|apply IH].
Qed.
Lemma array_loop_child fuel : forall f st it start d buf t g k m, array_loop fuel f st it start d buf <> Ok (t, g, k, Some m).
Proof.
  induction fuel as [|fuel IH]; intros f st it start d buf t g k m; [discriminate|]. cbn [array_loop]. cbv zeta.
  destruct (_ =? 0); [discriminate|]. destruct (_ && _); [apply IH|].
  destruct (isspace _). { destruct (w_in_dynamic st); [destruct buf; discriminate|]. destruct buf; [apply IH|discriminate]. }
  destruct (_ && _ && _); [discriminate|]. destruct (_ && _); [apply IH|]. destruct (_ =? l_stop f); [|apply IH].
  destruct d; [|apply IH]. destruct (w_in_dynamic st); [destruct buf; discriminate|]. destruct buf; discriminate.
Qed.
Definition textual (k : kind) : bool := match k with KStr _ _ _ | KWords _ _ _ _ _ => true | _ => false end.
Lemma own_child_last f k t g k' m : next_own f k = Ok (t, Lexer g k' (Some m)) -> textual k = true -> l_last (lx_of m) = no_token.
Proof.
  unfold next_own. destruct (skip_ws f k) as [[b h]| |]; [|discriminate..]. cbn [bind]. cbv zeta.
  destruct (build (set_tokpos h b) k) as [[[[u f1] k1] n1]| |] eqn:E; [|discriminate..]. cbn [bind].
  intros H Hk. injection H as _ _ _ ->. destruct k; cbn [textual] in Hk; try discriminate; cbn [build] in E.
  - destruct st; cbn [build_str] in E.
    + eapply str_loop_child; exact E.
    + unfold str_start_evaluation in E. injection E as _ _ _ <-. reflexivity.
    + discriminate.
    + discriminate.
    + discriminate.
  - destruct st; cbn [build_words] in E; try discriminate.
    + destruct (array_loop_child _ _ _ _ _ _ _ _ _ _ _ E).
    + destruct (array_loop_child _ _ _ _ _ _ _ _ _ _ _ E).
    + destruct (_ =? l_stop _); discriminate.
    + injection E as _ _ _ <-. reflexivity.
Qed.
Lemma own_kind s f k t g k' n : node_ok s f k -> next_own f k = Ok (t, Lexer g k' n) -> textual k' = textual k.
Proof.
  intros Hn E. pose proof (next_own_post s f k Hn) as H. rewrite E in H. cbn [post own_post] in H.
  pose proof (ow_trans _ _ _ _ _ _ _ H) as Ht. destruct k; cbn [ktrans] in Ht.
  - destruct Ht as [-> _]. reflexivity.
  - destruct Ht as (a & b & Ht & _). inversion Ht; reflexivity.
  - destruct Ht as (a & b & Ht & _). inversion Ht; reflexivity.
  - destruct Ht as (a & b & Ht & _). inversion Ht; reflexivity.
Qed.

(** ** One own step in two places *)

Definition idb (b : bool) : bool := b.
Definition so pre dl dc wsf lf (p : token * lexer) : token * lexer :=
  let '(t, Lexer f k n) := p in (sht dl dc wsf t, Lexer (sh pre dl dc wsf lf f) k (option_map (shn pre dl dc wsf lf) n)).
Lemma next_own_sh pre dl dc lf f k :
  (forall b g, skip_ws f k = Ok (b, g) -> kind_ready pre dc idb lf k (set_tokpos g b)) ->
  next_own (sh pre dl dc idb lf f) k = mapr (so pre dl dc idb lf) (next_own f k).
Proof.
  intros Hr. unfold next_own.
  assert (E : skip_ws (sh pre dl dc idb lf f) k = mapr (sp pre dl dc idb lf) (skip_ws f k)).
  { destruct k; cbn [skip_ws]; [apply sh_skip_ws|reflexivity..]. }
  rewrite E. destruct (skip_ws f k) as [[b g]| |]; [|reflexivity..]. cbn [bind mapr sp fst snd]. cbv zeta.
  change (set_tokpos (sh pre dl dc idb lf g) b) with (sh pre dl dc idb lf (set_tokpos g b)).
  rewrite sh_build by (apply Hr; reflexivity).
  destruct (build (set_tokpos g b) k) as [[[[t f1] k1] n1]| |]; reflexivity.
Qed.
Definition view pre dl dc lf f : lx := clear (sh pre dl dc idb lf f).
Lemma ready_home lf k f : lf = (fun t => t) \/ textual k = true /\ lf T_Invalid = T_Invalid ->
  forall b g, skip_ws f k = Ok (b, g) -> kind_ready [] 0 idb lf k (set_tokpos g b).
Proof.
  intros H b g _. destruct k; cbn [kind_ready textual] in *.
  - destruct H as [->|[H _]]; [|discriminate]. split; [left; reflexivity|]. split; [left; reflexivity|]. split; [left; reflexivity|left; split; reflexivity].
  - split; [reflexivity|]. destruct H as [->|[_ H]]; [reflexivity|exact H].
  - exact I.
  - split; [reflexivity|]. destruct H as [->|[_ H]]; [reflexivity|exact H].
Qed.
Lemma own_view pre dl dc lf1 lf2 f1 f2 k :
  (forall b g, skip_ws f1 k = Ok (b, g) -> kind_ready pre dc idb lf1 k (set_tokpos g b)) ->
  lf2 = (fun t => t) \/ textual k = true /\ lf2 T_Invalid = T_Invalid ->
  view pre dl dc lf1 f1 = view [] 0 0 lf2 f2 ->
  mapr (so pre dl dc idb lf1) (next_own f1 k) = mapr (so [] 0 0 idb lf2) (next_own f2 k).
Proof.
  intros H1 H2 E. rewrite <- next_own_sh by exact H1. rewrite <- next_own_sh by (apply ready_home; exact H2).
  rewrite <- (next_own_clear (sh pre _ _ _ _ _)), <- (next_own_clear (sh [] _ _ _ _ _)). unfold view in E. rewrite E. reflexivity.
Qed.
Lemma sht_home t : sht 0 0 idb t = t.
Proof. destruct t. unfold sht, scol, idb. cbn. destruct (tk_line =? 0)%nat; reflexivity. Qed.

Definition lfk (k : kind) : ttype -> ttype := if textual k then fun _ => T_Invalid else fun t => t.
Lemma lfk_home k : lfk k = (fun t => t) \/ textual k = true /\ lfk k T_Invalid = T_Invalid.
Proof. unfold lfk. destruct (textual k); auto. Qed.

Lemma view_weaken pre dl dc lf1 lf2 lf1' lf2' f1 f2 :
  (lf1 (ty (l_last f1)) = lf2 (ty (l_last f2)) -> lf1' (ty (l_last f1)) = lf2' (ty (l_last f2))) ->
  view pre dl dc lf1 f1 = view [] 0 0 lf2 f2 -> view pre dl dc lf1' f1 = view [] 0 0 lf2' f2.
Proof.
  intros H E. specialize (H (f_equal (fun f => ty (l_last f)) E)).
  unfold view, clear, sh, kind_only in *. cbn [l_input l_size l_cur l_heredocs l_last l_ternary l_stop l_start l_depth l_names] in *.
  rewrite H. f_equal.
  - exact (f_equal l_input E).
  - exact (f_equal l_size E).
  - exact (f_equal l_cur E).
  - exact (f_equal l_heredocs E).
  - exact (f_equal l_ternary E).
  - exact (f_equal l_stop E).
  - exact (f_equal l_start E).
  - exact (f_equal l_depth E).
  - exact (f_equal l_names E).
Qed.
Lemma view_sh pre dl dc wsf1 wsf2 lf1 lf2 f1 f2 :
  sh pre dl dc wsf1 lf1 f1 = sh [] 0 0 wsf2 lf2 f2 -> view pre dl dc lf1 f1 = view [] 0 0 lf2 f2.
Proof.
  intros E. unfold view, clear, sh in *. cbn [l_input l_size l_cur l_heredocs l_last l_ternary l_stop l_start l_depth l_names] in *.
  f_equal.
  - exact (f_equal l_input E).
  - exact (f_equal l_size E).
  - exact (f_equal l_cur E).
  - exact (f_equal l_heredocs E).
  - exact (f_equal l_last E).
  - exact (f_equal l_ternary E).
  - exact (f_equal l_stop E).
  - exact (f_equal l_start E).
  - exact (f_equal l_depth E).
  - exact (f_equal l_names E).
Qed.

Lemma view_idx pre dl dc lf f1 f2 : view pre dl dc lf f1 = view [] 0 0 lf f2 -> scur pre dl dc (l_cur f1) = l_cur f2.
Proof.
  intros E. pose proof (f_equal l_cur E) as H. cbn in H. rewrite H. unfold scur, scol. destruct (l_cur f2) as [i l c]. cbn.
  destruct (l =? 0)%nat; reflexivity.
Qed.
Lemma view_setcur pre dl dc lf f1 f2 c : view pre dl dc lf f1 = view [] 0 0 lf f2 ->
  view pre dl dc lf (set_cur f1 c) = view [] 0 0 lf (set_cur f2 (scur pre dl dc c)).
Proof.
  intros E. assert (A : forall q d e f c, view q d e lf (set_cur f c) = set_cur (view q d e lf f) (scur q d e c)) by reflexivity.
  rewrite !A, E. f_equal. unfold scur, scol. cbn. destruct (_ + _ =? 0)%nat; reflexivity.
Qed.
Lemma col_first s i : line_of s i = 0%nat -> col_of s i = i.
Proof.
  unfold line_of, col_of. revert i. assert (A : forall s i n, newlines (firstn i s) = 0%nat -> (since_newline (firstn i s) n + (i - length s) = n + i)%nat).
  { induction s0 as [|c s0 IH]; intros [|i] n H; cbn [firstn newlines since_newline length] in *; try lia.
    destruct (c =? ch_nl); [lia|]. rewrite Nat.sub_succ, IH; lia. }
  intros i H. rewrite A; lia.
Qed.

Section paste.
Variables (s pre : str) (dl dc : nat).
Hypothesis Hmark : pre = [] \/ nth 0 s 0 <> 0xEF.
Hypothesis Hbegin : dc = 0%nat \/ firstn 6 s <> s2l "=begin".

Definition hpre (h : bool) : str := if h then [] else pre.
Definition at_home (h : bool) (f : lx) : Prop := (h = false -> l_input f = s) /\ (h = true -> (0 < c_line (l_cur f))%nat).

Fixpoint rel (h : bool) (l1 l2 : lexer) : Prop :=
  match l1, l2 with
  | Lexer f1 k1 n1, Lexer f2 k2 n2 =>
    k1 = k2 /\ at_home h f1 /\ view (hpre h) dl dc (lfk k1) f1 = view [] 0 0 (lfk k1) f2 /\
    match n1, n2 with
    | None, None => True
    | Some m1, Some m2 => rel (h || negb (alters_parent m1)) m1 m2
    | _, _ => False
    end
  end.

Lemma head_char g : wf g -> l_input g = s -> l_idx g = 0%nat -> current_char g = nth 0 s 0.
Proof.
  intros Hw Hi Hx. unfold current_char, at_. unfold wf in Hw. rewrite Hx, Hi in *.
  destruct s as [|c r]; [rewrite Hw; reflexivity|]. rewrite Hw. reflexivity.
Qed.
Lemma begins g : wf g -> l_input g = s -> l_idx g = 0%nat -> current_char g = "="%ch ->
  match_ (advance g) (s2l "begin") <> None -> firstn 6 s = s2l "=begin".
Proof.
  intros Hw Hi Hx Hc Hm. rewrite (head_char g Hw Hi Hx) in Hc.
  unfold match_ in Hm. cbv zeta in Hm. rewrite advance_idx, Hx in Hm.
  replace (l_input (advance g)) with s in Hm by (unfold advance; destruct (_ =? ch_nl); symmetry; exact Hi).
  destruct (_ <? _)%nat; [congruence|]. destruct (str_eqb _ _) eqn:E; [|congruence].
  apply str_eqb_eq in E. destruct s as [|c r]; [discriminate E|]. cbn [nth] in Hc. subst c.
  cbn [skipn] in E. change (firstn 6 ("="%ch :: r)) with ("="%ch :: firstn 5 r). change 5%nat with (length (s2l "begin")).
  rewrite <- E. reflexivity.
Qed.

Lemma ready_away h f1 k : node_ok s f1 k -> at_home h f1 ->
  forall b g, skip_ws f1 k = Ok (b, g) -> kind_ready (hpre h) dc idb (lfk k) k (set_tokpos g b).
Proof.
  intros Hn [Hin Hline] b g E.
  pose proof (skip_ws_post (crash_ev s) f1 k) as Hg. rewrite E in Hg. cbn [post snd] in Hg.
  assert (Hgn : node_ok s g k).
  { eapply mv_node; [apply mv_nr; [apply nr_adv; exact Hg|apply (no_pre _ _ _ Hn)]|exact Hn|apply (no_kind _ _ _ Hn)]. }
  pose proof (nr_adv _ _ _ Hg) as Hnr.
  destruct k; cbn [kind_ready lfk textual]; [|split; reflexivity|exact I|split; reflexivity].
  split; [left; reflexivity|]. split; [left; reflexivity|].
  destruct h.
  - split; [|left; split; reflexivity].
    right; left. destruct (nr_cur _ _ _ Hnr) as (j & _ & Hj). change (l_cur (set_tokpos g b)) with (l_cur g). rewrite Hj.
    pose proof (advance_n_line j f1). specialize (Hline eq_refl). lia.
  - assert (Hi : l_input g = s) by (rewrite (nr_input _ _ _ Hnr); auto).
    pose proof (no_pre _ _ _ Hgn) as [Hw _ _ _]. pose proof (no_pos _ _ _ Hgn Hi) as Hp.
    cbn [hpre]. unfold unmoved, markless. change (l_cur (set_tokpos g b)) with (l_cur g).
    change (current_char (set_tokpos g b)) with (current_char g).
    destruct (Nat.eq_dec (l_idx g) 0) as [Hx|Hx].
    + split.
      * destruct Hbegin as [Hb|Hb]; [left; exact Hb|]. right; right; right. intros Hc.
        destruct (match_ (advance (set_tokpos g b)) (s2l "begin")) eqn:Em; [|reflexivity].
        exfalso. apply Hb. apply (begins (set_tokpos g b)); try assumption. rewrite Em. discriminate.
      * destruct Hmark as [Hm|Hm]; [left; split; [exact Hm|reflexivity]|]. right; right. rewrite (head_char g Hw Hi Hx). exact Hm.
    + split; [|right; left; exact Hx].
      destruct (Nat.eq_dec (c_line (l_cur g)) 0) as [Hl|Hl]; [|right; left; lia]. right; right; left.
      rewrite Hp in *. cbn [pos_of c_idx c_line c_col] in *. rewrite (col_first _ _ Hl). lia.
Qed.

Definition related {A B} (R : A -> B -> Prop) (x : res A) (y : res B) : Prop :=
  match x, y with
  | Ok a, Ok b => R a b
  | Crash r, Crash r' => r = r'
  | NoFuel, NoFuel => True
  | _, _ => False
  end.

Lemma alters_kind f k n f' n' : alters_parent (Lexer f k n) = alters_parent (Lexer f' k n').
Proof. reflexivity. Qed.

(** A nested lexer just made. *)
Lemma child_rel h wsf1 wsf2 lf1 lf2 m1 m2 :
  shn (hpre h) dl dc wsf1 lf1 m1 = shn [] 0 0 wsf2 lf2 m2 ->
  child_of m1 = None ->
  at_home (h || negb (alters_parent m1)) (lx_of m1) ->
  (lf1 (ty (l_last (lx_of m1))) = lf2 (ty (l_last (lx_of m2))) ->
     lfk (kind_of m1) (ty (l_last (lx_of m1))) = lfk (kind_of m1) (ty (l_last (lx_of m2)))) ->
  rel (h || negb (alters_parent m1)) m1 m2.
Proof.
  destruct m1 as [f1 k1 n1], m2 as [f2 k2 n2]. unfold shn. cbn [child_of lx_of kind_of]. intros E -> Hh Hl.
  injection E as E Ek En. subst k2 n2. cbn [rel].
  split; [reflexivity|]. split; [exact Hh|]. split; [|exact I].
  unfold alters_parent in *. destruct (match k1 with KStr _ _ al => al | _ => true end).
  - apply view_sh in E. cbn [negb]. rewrite orb_false_r. eapply view_weaken; [exact Hl|exact E].
  - cbn [negb]. rewrite orb_true_r in *. cbn [hpre]. destruct Hh as [_ Hh]. specialize (Hh eq_refl).
    assert (L : l_last f1 = l_last f2) by (exact (f_equal l_last E)).
    unfold view, clear, sh, kind_only. rewrite L.
    replace (scur [] dl dc (l_cur f1)) with (scur [] 0 0 (l_cur f2)).
    2: { pose proof (f_equal l_cur E) as Ec. cbn [set_cur l_cur] in Ec. injection Ec as E1 E2 E3.
         unfold scur, scol. destruct (Nat.eqb_spec (c_line (l_cur f1)) 0); [lia|].
         cbn [length plus]. rewrite E1, E2, E3. destruct (c_line (l_cur f2) =? 0)%nat; reflexivity. }
    f_equal.
    + exact (f_equal l_input E).
    + cbn. exact (f_equal l_size E).
    + cbn. pose proof (f_equal l_heredocs E) as H. cbn in H. rewrite H. reflexivity.
    + exact (f_equal l_ternary E).
    + exact (f_equal l_stop E).
    + exact (f_equal l_start E).
    + exact (f_equal l_depth E).
    + exact (f_equal l_names E).
Qed.

Lemma own_done h wsf lf1 lf2 f1 k t1 g1 k1 n1 t2 g2 k2 n2 : node_ok s f1 k -> at_home h f1 ->
  next_own f1 k = Ok (t1, Lexer g1 k1 n1) ->
  so (hpre h) dl dc wsf lf1 (t1, Lexer g1 k1 n1) = so [] 0 0 idb lf2 (t2, Lexer g2 k2 n2) ->
  (forall m1 m2, n1 = Some m1 -> n2 = Some m2 -> lf1 (ty (l_last (lx_of m1))) = lf2 (ty (l_last (lx_of m2))) ->
     lfk (kind_of m1) (ty (l_last (lx_of m1))) = lfk (kind_of m1) (ty (l_last (lx_of m2)))) ->
  t2 = sht dl dc wsf t1 /\ k1 = k2 /\ textual k1 = textual k /\ at_home h g1 /\
  view (hpre h) dl dc lf1 g1 = view [] 0 0 lf2 g2 /\
  match n1, n2 with
  | None, None => True
  | Some m1, Some m2 => rel (h || negb (alters_parent m1)) m1 m2
  | _, _ => False
  end.
Proof.
  intros Hn Hh E1 E Hlast. cbn [so] in E.
  assert (Et : sht dl dc wsf t1 = sht 0 0 idb t2) by exact (f_equal fst E).
  assert (Eg : sh (hpre h) dl dc wsf lf1 g1 = sh [] 0 0 idb lf2 g2) by exact (f_equal (fun p => lx_of (snd p)) E).
  assert (Ek : k1 = k2) by exact (f_equal (fun p => kind_of (snd p)) E).
  assert (En : option_map (shn (hpre h) dl dc wsf lf1) n1 = option_map (shn [] 0 0 idb lf2) n2)
    by exact (f_equal (fun p => child_of (snd p)) E).
  clear E. split; [rewrite sht_home in Et; symmetry; exact Et|]. split; [exact Ek|].
  split; [exact (own_kind _ _ _ _ _ _ _ Hn E1)|].
  pose proof (next_own_post s f1 k Hn) as Hpost. rewrite E1 in Hpost. cbn [post own_post] in Hpost.
  destruct (own_line _ _ _ _ _ _ _ Hn E1) as (Hl1 & _ & Hl3).
  assert (Hg1 : at_home h g1).
  { destruct Hh as [Ha Hb]. split.
    - intros ->. rewrite (ow_input _ _ _ _ _ _ _ Hpost). auto.
    - intros ->. specialize (Hb eq_refl). lia. }
  split; [exact Hg1|]. split; [eapply view_sh; exact Eg|].
  destruct n1 as [m1|], n2 as [m2|]; try discriminate En; [|exact I].
  cbn [option_map] in En. apply (f_equal (fun n => match n with Some m => m | None => m1 end)) in En.
  destruct (ow_child _ _ _ _ _ _ _ Hpost m1 eq_refl) as (Hm1 & Hm2 & Hm3 & _). specialize (Hl3 m1 eq_refl).
  apply (child_rel h wsf idb lf1 lf2 m1 m2 En Hm3); [|apply Hlast; reflexivity].
  destruct m1 as [f3 k3 n3]. cbn [lx_of] in *. unfold child_ok in Hm2.
  destruct (alters_parent (Lexer f3 k3 n3)) eqn:Ea; cbn [negb].
  - rewrite orb_false_r. destruct Hg1 as [Ha Hb]. split; [intros Eh; rewrite (proj1 Hm2); auto|].
    intros Eh. rewrite Hl3. auto.
  - rewrite orb_true_r. split; [discriminate|]. intros _. exact Hl3.
Qed.

Lemma own_rel h f1 f2 k : node_ok s f1 k -> at_home h f1 ->
  view (hpre h) dl dc (lfk k) f1 = view [] 0 0 (lfk k) f2 ->
  related (fun p q => fst q = sht dl dc idb (fst p) /\ rel h (snd p) (snd q)) (next_own f1 k) (next_own f2 k).
Proof.
  intros Hn Hh Hv.
  pose proof (own_view _ _ _ _ _ _ _ k (ready_away h f1 k Hn Hh) (lfk_home k) Hv) as E.
  destruct (next_own f1 k) as [[t1 [g1 k1 n1]]| |] eqn:E1; destruct (next_own f2 k) as [[t2 [g2 k2 n2]]| |] eqn:E2;
    cbn [mapr] in E; try discriminate E; cbn [related]; [|congruence|exact I].
  apply (f_equal (fun r => match r with Ok p => p | _ => so (hpre h) dl dc idb (lfk k) (t1, Lexer g1 k1 n1) end)) in E.
  destruct (own_done h idb (lfk k) (lfk k) f1 k t1 g1 k1 n1 t2 g2 k2 n2 Hn Hh E1 E) as (H1 & H2 & H3 & H4 & H5 & H6).
  - intros m1 m2 -> ->. unfold lfk at 1 2. destruct (textual k) eqn:Et'.
    + intros _. rewrite (own_child_last _ _ _ _ _ _ E1 Et'), (own_child_last _ _ _ _ _ _ E2 Et'). reflexivity.
    + intros ->. reflexivity.
  - cbn [fst snd rel]. split; [exact H1|]. split; [exact H2|]. split; [exact H4|]. split; [|exact H6].
    unfold lfk in *. rewrite H3. exact H5.
Qed.

Lemma next_token_rel l1 : forall h l2, ok s l1 -> rel h l1 l2 ->
  related (fun p q => fst q = sht dl dc idb (fst p) /\ rel h (snd p) (snd q)) (next_token l1) (next_token l2).
Proof.
  induction l1 as [f1 k m1 IH|f1 k] using chain_ind; intros h [f2 k2 n2] Hok Hrel; cbn [rel] in Hrel; destruct Hrel as (<- & Hh & Hv & Hr).
  - destruct n2 as [m2|]; [|destruct Hr]. cbn [next_token]. destruct Hok as (Hn & Hm & Hc).
    specialize (IH _ _ Hm Hr). pose proof (next_token_post s m1 Hm) as Hp.
    destruct (next_token m1) as [[t1 m1']| |] eqn:E1, (next_token m2) as [[t2 m2']| |] eqn:E2; cbn [related] in IH; try (destruct IH; fail);
      cbn [bind related]; [|exact IH|exact I].
    cbn [fst snd] in IH. destruct IH as [-> IH]. cbn [post fst snd] in Hp. destruct Hp.
    change (ty (sht dl dc idb t1)) with (ty t1).
    assert (Hc' : child_ok f1 m1') by (eapply child_step; eauto).
    assert (Ha : alters_parent m2' = alters_parent m1').
    { destruct m1' as [a b c], m2' as [a' b' c']. cbn [rel] in IH. destruct IH as [<- _]. reflexivity. }
    destruct (is_eof (ty t1)).
    + fold (resume f1 m1'). rewrite Ha. apply own_rel.
      * apply resume_node; assumption.
      * unfold resume. rewrite tr_alters in *. destruct (alters_parent m1) eqn:Ea; [|exact Hh].
        cbn [negb] in IH. rewrite orb_false_r in IH. destruct m1' as [a b c], m2' as [a' b' c']. cbn [rel lexer_cur] in *.
        destruct IH as (_ & [_ H2] & _). split; [intros ->; cbn; destruct Hh as [Hh _]; auto|exact H2].
      * unfold resume. rewrite tr_alters in *. destruct (alters_parent m1) eqn:Ea; [|exact Hv].
        cbn [negb] in IH. rewrite orb_false_r in IH. destruct m1' as [a b c], m2' as [a' b' c']. cbn [rel lexer_cur] in *.
        destruct IH as (_ & _ & H2 & _). rewrite <- (view_idx _ _ _ _ _ _ H2). apply view_setcur. exact Hv.
    + cbn [related fst snd rel]. rewrite tr_alters. auto.
  - destruct n2; [destruct Hr|]. cbn [next_token]. apply own_rel; [apply Hok|assumption..].
Qed.

(** ** The token loop *)

Notation sg := (sht dl dc idb).
Lemma record_rel l1 l2 t t' : ty t' = ty t -> rel false l1 l2 -> rel false (record_last l1 t) (record_last l2 t').
Proof.
  destruct l1 as [f1 k1 n1], l2 as [f2 k2 n2]. cbn [rel record_last]. intros Et (H1 & H2 & H3 & H4).
  split; [exact H1|]. split; [exact H2|]. split; [|exact H4]. 
  unfold view, clear, sh, kind_only in *. cbn [set_last l_input l_size l_cur l_heredocs l_last l_ternary l_stop l_start l_depth l_names] in *.
  rewrite Et. f_equal.
  - exact (f_equal l_input H3).
  - exact (f_equal l_size H3).
  - exact (f_equal l_cur H3).
  - exact (f_equal l_heredocs H3).
  - exact (f_equal l_ternary H3).
  - exact (f_equal l_stop H3).
  - exact (f_equal l_start H3).
  - exact (f_equal l_depth H3).
  - exact (f_equal l_names H3).
Qed.
(** Popping newlines does not reach the tokens of the text in front. *)
Definition anchored (base acc : list token) : Prop := base = [] \/ Exists (fun t => is_newline (ty t) = false) acc.
Lemma pop_anchored base acc : anchored base acc ->
  pop_newlines (map sg acc ++ base) = map sg (pop_newlines acc) ++ base /\ anchored base (pop_newlines acc).
Proof.
  intros [->|H].
  - rewrite !app_nil_r. split; [|left; reflexivity].
    induction acc as [|t acc IH]; [reflexivity|]. cbn [map pop_newlines]. change (ty (sg t)) with (ty t).
    destruct (is_newline (ty t)); [exact IH|reflexivity].
  - induction acc as [|t acc IH]; [inversion H|]. cbn [map pop_newlines app]. change (ty (sg t)) with (ty t).
    destruct (is_newline (ty t)) eqn:E; [|split; [reflexivity|right; exact H]].
    apply IH. inversion H; [congruence|assumption].
Qed.
Lemma loop_rel fuel : forall l1 l2 acc base skip pending, ok s l1 -> rel false l1 l2 -> anchored base acc ->
  tokens_loop fuel l2 (map sg acc ++ base) skip pending =
  mapr (fun ts => rev base ++ map sg ts) (tokens_loop fuel l1 acc skip pending).
Proof.
  induction fuel as [|fuel IH]; intros l1 l2 acc base skip pending Hok Hrel Ha; [reflexivity|]. cbn [tokens_loop].
  pose proof (next_token_rel l1 false l2 Hok Hrel) as H. pose proof (next_token_post s l1 Hok) as Hp.
  destruct (next_token l1) as [[t1 l1']| |] eqn:E1, (next_token l2) as [[t2 l2']| |] eqn:E2; cbn [related] in H; try (destruct H; fail);
    cbn [bind mapr]; [|congruence|reflexivity].
  cbn [fst snd post] in *. destruct H as [-> H]. destruct Hp as [Hok' _ _ _ _ _ _ _].
  change (ty (sg t1)) with (ty t1). change (literal_or_blank (sg t1)) with (literal_or_blank t1).
  destruct (is_comment (ty t1)); [apply IH; assumption|].
  destruct (is_doc (ty t1)); [apply IH; assumption|].
  destruct (skip && is_newline (ty t1)); [apply IH; assumption|].
  set (acc' := if can_follow_collapsible_newline (ty t1) then pop_newlines acc else acc).
  assert (A : (if can_follow_collapsible_newline (ty t1) then pop_newlines (map sg acc ++ base) else map sg acc ++ base) = map sg acc' ++ base
              /\ anchored base acc').
  { unfold acc'. destruct (can_follow_collapsible_newline (ty t1)); [apply pop_anchored; exact Ha|auto]. }
  destruct A as [A1 A2]. rewrite A1. clearbody acc'.
  set (q := match pending with
            | Some d => if can_have_doc (ty t1) then (set_doc t1 d, None) else if negb (is_end_of_line (ty t1)) then (t1, None) else (t1, pending)
            | None => (t1, pending) end).
  replace (match pending with
           | Some d => if can_have_doc (ty t1) then (set_doc (sg t1) d, None)
               else if negb (is_end_of_line (ty t1)) then (sg t1, None) else (sg t1, pending)
           | None => (sg t1, pending) end) with (sg (fst q), snd q).
  2: { unfold q. destruct pending; [|reflexivity]. destruct (can_have_doc _); [reflexivity|]. destruct (negb _); reflexivity. }
  destruct q as [t pend]. cbn [fst snd]. change (ty (sg t)) with (ty t).
  assert (A3 : anchored base (t :: acc')) by (destruct A2 as [A2|A2]; [left; exact A2|right; constructor 2; exact A2]).
  assert (A4 : rev (sg t :: map sg acc' ++ base) = rev base ++ map sg (rev (t :: acc'))).
  { change (sg t :: map sg acc' ++ base) with (map sg (t :: acc') ++ base). rewrite rev_app_distr, map_rev. reflexivity. }
  destruct (is_eof (ty t)); [cbn [mapr]; rewrite <- A4; reflexivity|].
  destruct (negb (is_valid (ty t))); [cbn [mapr]; rewrite <- A4; reflexivity|].
  change (sg t :: map sg acc' ++ base) with (map sg (t :: acc') ++ base).
  apply IH; [apply ok_record; exact Hok'|apply record_rel; [reflexivity|exact H]|exact A3].
Qed.
End paste.

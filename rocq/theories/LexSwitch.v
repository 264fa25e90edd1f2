(** * LexSwitch: what one step of the base lexer guarantees *)
From Coq Require Import Strings.String NArith ZArith Bool Arith List Lia ZifyBool ZifyNat ZifyN.
From Verif Require Import Base Token Spec LexModel LexBasics LexRest LexLoops LexSpec LexEsc LexHeredoc.
Import ListNotations.
Open Scope N_scope.

(** Pending heredoc ends lie inside the input, after some '<'. *)
Definition stack_ok (f : lx) : Prop :=
  Forall (fun i => (i <= l_size f)%nat /\ In "<"%ch (firstn i (l_input f))) (l_heredocs f).

Record pre (f : lx) : Prop := Pre {
  pre_wf : wf f;
  pre_bytes : bytes (l_input f);
  pre_tame : tame (l_input f);
  pre_stack : stack_ok f;
}.

(** Begin and end types of a string-like literal. *)
Definition pair_ty (b e : ttype) : Prop :=
  (b = T_InterpolatedStringBegin /\ e = T_InterpolatedStringEnd) \/
  (b = T_InterpolatedShellBegin /\ e = T_InterpolatedShellEnd) \/
  (b = T_InterpolatedSymbolBegin /\ e = T_InterpolatedSymbolEnd).
Definition words_ty (t : ttype) (it : bool) : Prop :=
  if it then t = T_PercentUpperW \/ t = T_PercentUpperI else t = T_PercentLowerW \/ t = T_PercentLowerI.

Definition nested_ok (f : lx) (t : ttype) (n : option lexer) : Prop :=
  match n with
  | None => plain_ty t = true
  | Some l =>
    (exists start stop et, l = new_string_lexer f start stop et /\ stop <> 0 /\ pair_ty t et) \/
    (exists start stop, l = new_regexp_lexer f start stop /\ stop <> 0 /\ t = T_InterpolatedRegexpBegin) \/
    (exists start stop it, l = new_words_lexer f start stop it /\ stop <> 0 /\ words_ty t it) \/
    (exists body et, l = new_heredoc_lexer f body et /\ pair_ty t et /\ bytes body /\ tame body /\
       (lts body < lts (l_input f))%nat /\ lines_of (l_input f) body /\ contains (s2l "<<") (l_input f))
  end.

(** The state after a step: advanced by [k], with other heredoc and ternary fields. *)
Definition upd (k : nat) (f f' : lx) : Prop :=
  exists h b, f' = set_ternary (set_heredocs (advance_n k f) h) b /\ stack_ok f'.

Definition step_ok (f : lx) (p : bres) : Prop :=
  let '(t, f', n) := p in
  tok_ok f t /\ (exists k, (need (ty t) <= k)%nat /\ upd k f f') /\ nested_ok f' (ty t) n.

Lemma stack_ok_adv m f g : adv m f g -> stack_ok f -> stack_ok g.
Proof.
  unfold stack_ok. intros H. rewrite (adv_size _ _ _ H), (adv_input _ _ _ H), (adv_heredocs _ _ _ H). auto.
Qed.

Lemma upd_adv k f : stack_ok f -> upd k f (advance_n k f).
Proof.
  intros Hs. exists (l_heredocs (advance_n k f)), (l_ternary (advance_n k f)).
  split; [destruct (advance_n k f); reflexivity|]. eapply stack_ok_adv; [apply adv_advance_n|exact Hs].
Qed.
Lemma upd_of_adv m f g : adv m f g -> stack_ok f -> exists k, (m <= k)%nat /\ upd k f g.
Proof. intros (k & Hk & ->) Hs. exists k. split; [exact Hk|apply upd_adv, Hs]. Qed.

Lemma plain_post C f m : stack_ok f -> post C m (cons_ok f) -> post C (plain m) (step_ok f).
Proof.
  intros Hs Hm. unfold plain. apply post_bind. eapply post_weaken; [exact Hm|auto|].
  intros [t g] (H1 & H2 & H3); cbn [fst snd post step_ok] in *.
  split; [exact H1|]. split; [apply upd_of_adv; assumption|exact H3].
Qed.

(** ** Heredocs *)

Lemma lts_split i s : In "<"%ch (firstn i s) -> (lts (skipn i s) < lts s)%nat.
Proof.
  intros H. rewrite <- (firstn_skipn i s) at 2. rewrite lts_app. apply lts_in in H. lia.
Qed.
Lemma in_firstn_le {A} (x : A) i j s : (i <= j)%nat -> In x (firstn i s) -> In x (firstn j s).
Proof.
  intros Hij H. replace (firstn i s) with (firstn i (firstn j s)) in H.
  - rewrite <- (firstn_skipn i (firstn j s)). apply in_or_app. left. exact H.
  - rewrite firstn_firstn. f_equal. lia.
Qed.
Lemma in_firstn {A} (x : A) i s : In x (firstn i s) -> In x s.
Proof. intros H. rewrite <- (firstn_skipn i s). apply in_or_app. left. exact H. Qed.

Lemma heredoc_name_post C f (c : N) :
  c <> 0 ->
  post C (let g := advance f in heredoc_name_loop (loop_fuel g) g c [])
    (fun p => adv 1 f (snd p) /\ (forall n, fst p = Some n -> wf f -> bytes (l_input f) -> bytes n)).
Proof.
  intros Hc. cbv zeta. eapply post_weaken; [apply heredoc_name_loop_post; [exact Hc|adv_lia] | exact (fun _ H => H) |].
  intros [o g] [H1 H2]; cbn [fst snd] in *. split; [adv_solve|].
  intros n E Hw Hb. subst o. apply H2; auto using bytes_nil.
Qed.

Lemma consume_heredoc_post C f :
  pre f -> In "<"%ch (firstn (l_idx f) (l_input f)) -> contains (s2l "<<") (l_input f) ->
  post C (consume_heredoc f) (step_ok f).
Proof.
  intros [Hw Hb Ht Hs] Hlt Hll.
  assert (Hsm : small (l_input f)).
  { destruct Ht as [H|H]; [exact H|]. exfalso. apply in_firstn, lts_in in Hlt. lia. }
  unfold consume_heredoc. cbv zeta.
  set (f1 := if (current_char f =? "-"%ch) || (current_char f =? "~"%ch) then advance f else f).
  assert (H1 : adv 0 f f1) by (subst f1; destruct (_ || _); adv_solve).
  apply post_bind.
  apply post_weaken with (C := C)
    (Q := fun p => adv 1 f (snd p)).
  { destruct ((current_char f1 =? """"%ch) || (current_char f1 =? "`"%ch) || (current_char f1 =? "'"%ch)) eqn:E.
    - eapply post_weaken; [apply heredoc_name_post | exact (fun _ H => H) |].
      + intros E0. rewrite E0 in E. discriminate.
      + intros [o g] [H _]; cbn [fst snd] in *. adv_solve.
    - apply post_bind. eapply post_weaken; [apply consume_word_post | exact (fun _ H => H) |].
      intros [w g] [H _]; cbn [fst snd post] in *. adv_solve. }
  { auto. }
  intros [name g]; cbn [snd]. intros Hg.
  assert (Hleaf : forall t s, bytes s -> is_valid t = false -> plain_ty t = true ->
            post C (Ok (tkl g t s, g, None)) (step_ok f)).
  { intros t s Hbs Hv Hp. cbn [post step_ok]. split; [apply tok_ok_tkl; [adv_solve|auto]|].
    split; [|exact Hp]. cbn [ty tkl]. unfold need. rewrite Hv. apply upd_of_adv; [adv_solve|exact Hs]. }
  destruct name as [name|]; [|apply Hleaf; [apply bytes_s2l|reflexivity|reflexivity]].
  assert (Hwg : wf g) by (eapply wf_adv; eauto).
  assert (Hsg : l_size g = l_size f) by (eapply adv_size; eauto).
  assert (Hig : l_input g = l_input f) by (eapply adv_input; eauto).
  apply post_bind.
  apply post_weaken with (C := C)
    (Q := fun o => match o with Some i => (i <= l_size f)%nat /\ In "<"%ch (firstn i (l_input f)) | None => True end).
  { rewrite (adv_heredocs _ _ _ Hg). unfold stack_ok in Hs. destruct (l_heredocs f) as [|i hs].
    - eapply post_weaken; [apply next_line_loop_post; adv_lia | exact (fun _ H => H) |].
      intros [i|]; [|auto]. intros Hi. split; [lia|].
      eapply in_firstn_le; [|exact Hlt]. apply adv_idx in Hg. lia.
    - inversion Hs; assumption. }
  { auto. }
  intros [i|] Hi; [|apply Hleaf; [apply bytes_s2l|reflexivity|reflexivity]].
  destruct Hi as [Hi Hli].
  apply post_bind. eapply post_weaken; [apply heredoc_body_loop_post; [exact Hwg|lia|lia] | exact (fun _ H => H) |].
  intros [d|[d j]].
  { intros (n & -> & _). apply Hleaf; [|reflexivity|reflexivity].
    simpl. apply bytes_firstn, bytes_skipn. rewrite Hig. exact Hb. }
  intros (Hj & _ & n & Hd & Hn). simpl in Hd. rewrite Hig in Hd.
  destruct (strip_trailing_spaces_firstn (firstn (length d - length name) d)) as [q Hq]. rewrite Hq.
  set (b0 := firstn q (firstn (length d - length name) d)).
  assert (Hc0 : contains b0 (skipn i (l_input f))).
  { eapply contains_trans; [apply contains_firstn|]. eapply contains_trans; [apply contains_firstn|].
    rewrite Hd. apply contains_firstn. }
  assert (Hc1 : contains b0 (l_input f)) by (eapply contains_trans; [exact Hc0|apply contains_skipn]).
  assert (Hlen0 : (length b0 <= length (l_input f))%nat).
  { destruct Hc1 as (x & y & ->). rewrite !app_length. lia. }
  assert (Hlt0 : (lts b0 < lts (l_input f))%nat).
  { pose proof (lts_split i (l_input f) Hli). destruct Hc0 as (x & y & Hc0). rewrite Hc0 in H.
    rewrite !lts_app in H. lia. }
  assert (Hsm0 : small b0) by (unfold small in *; lia).
  assert (Hb0 : bytes b0) by (eapply bytes_contains; eauto).
  set (body := if current_char f =? "~"%ch then dedent_heredoc b0 else b0).
  assert (Hbody : bytes body /\ tame body /\ (lts body < lts (l_input f))%nat /\ lines_of (l_input f) body).
  { subst body. destruct (current_char f =? "~"%ch).
    - destruct (dedent_tame b0 Hsm0) as [HA HB].
      split; [apply bytes_dedent, Hb0|]. split; [exact HB|]. split; [lia|].
      eapply lines_of_trans; [apply lines_of_contains; exact Hc1|]. apply dedent_lines.
    - split; [exact Hb0|]. split; [left; exact Hsm0|]. split; [exact Hlt0|]. apply lines_of_contains, Hc1. }
  assert (Hup : exists k, (1 <= k)%nat /\ upd k f (set_heredocs g (j :: l_heredocs g))).
  { destruct Hg as (k & Hk & ->). exists k. split; [exact Hk|].
    exists (j :: l_heredocs (advance_n k f)), (l_ternary (advance_n k f)). split; [reflexivity|].
    unfold stack_ok. cbn [l_heredocs set_heredocs l_size l_input].
    constructor.
    - split; [lia|]. rewrite Hig. eapply in_firstn_le; [|exact Hli]. lia.
    - pose proof (stack_ok_adv _ _ _ (adv_advance_n k f) Hs) as HH. exact HH. }
  destruct Hbody as (HA & HB & HC & HD).
  destruct (negb (current_char f1 =? "'"%ch)).
  - cbn [post step_ok]. split; [|split].
    + apply (tok_ok_tk f g). adv_solve.
    + cbn [ty tk]. destruct Hup as (k & Hk & Hu). exists k. split; [|exact Hu].
      destruct (current_char f1 =? "`"%ch); exact Hk.
    + cbn [ty tk nested_ok]. right. right. right. eexists _, _. split; [reflexivity|].
      split; [|cbn [l_input set_heredocs]; rewrite Hig; auto].
      destruct (current_char f1 =? "`"%ch); unfold pair_ty; auto.
  - cbn [post step_ok]. split; [|split].
    + apply (tok_ok_tkl f g); [adv_solve|auto].
    + exact Hup.
    + reflexivity.
Qed.

(** ** Keywords *)

Lemma advance_rewind f s r : wf f -> rest f = s ++ r -> nlfree s -> rewind (length s) (advance_n (length s) f) = f.
Proof.
  intros Hw Hr Hn.
  assert (H : forall s f, wf f -> rest f = s ++ r -> nlfree s ->
    l_cur (advance_n (length s) f) = Cur (l_idx f + length s) (c_line (l_cur f)) (c_col (l_cur f) + length s)).
  { clear. induction s as [|c s IH]; intros f Hw Hr Hn; cbn [length advance_n].
    - destruct (l_cur f); simpl. f_equal; lia.
    - rewrite IH.
      + assert (Hc : current_char f = c) by (rewrite current_char_rest by exact Hw; rewrite Hr; reflexivity).
        unfold advance. rewrite Hc. replace (c =? ch_nl) with false.
        * simpl. f_equal; lia.
        * symmetry. apply N.eqb_neq. intros ->. apply Hn. left. reflexivity.
      + exact Hw.
      + rewrite rest_advance, Hr. reflexivity.
      + intros Hin. apply Hn. right. exact Hin. }
  pose proof (advance_n_frame (length s) f) as Hf. unfold frame in Hf.
  unfold rewind. rewrite Hf. rewrite (H s f Hw Hr Hn). destruct f as [? ? [? ? ?]]; unfold set_cur; simpl.
  f_equal. f_equal; lia.
Qed.

Lemma str_eqb_eq a b : str_eqb a b = true <-> a = b.
Proof.
  revert b. induction a as [|x a IH]; intros [|y b]; simpl; split; intros H; try discriminate; auto.
  - apply andb_true_iff in H. destruct H as [H1 H2]. apply N.eqb_eq in H1. apply IH in H2. congruence.
  - injection H as -> ->. rewrite N.eqb_refl. simpl. apply IH. reflexivity.
Qed.
Lemma match_rest f s g : match_ f s = Some g -> rest f = s ++ rest g /\ g = advance_n (length s) f.
Proof.
  unfold match_. destruct (_ <? _)%nat; [discriminate|]. destruct (str_eqb _ _) eqn:E; [|discriminate].
  destruct (_ && _); [discriminate|]. intros H. injection H as <-. split; [|reflexivity].
  apply str_eqb_eq in E. rewrite rest_advance_n. rewrite E at 1. apply (eq_sym (firstn_skipn _ _)).
Qed.

Lemma match_keyword_spec f ks t g :
  match_keyword f ks = Some (t, g) -> exists s, In (s, t) ks /\ match_ f s = Some g.
Proof.
  induction ks as [|[s u] ks IH]; simpl; [discriminate|].
  destruct (match_ f s) as [h|] eqn:E.
  - intros H. injection H as -> ->. exists s. auto.
  - intros H. destruct (IH H) as (s' & Hin & Hm). exists s'. auto.
Qed.

Lemma keywords_ok s t : In (s, t) keywords -> (1 <= length s)%nat /\ is_valid t = true /\ plain_ty t = true /\
  match type_value t with Some v => bytes v | None => True end.
Proof.
  unfold keywords. simpl.
  intuition; match goal with H : (_, _) = (_, _) |- _ => injection H as <- <-; try (simpl; lia); try reflexivity end;
  cbn; repeat constructor.
Qed.

Lemma lex_keyword_adv f t g :
  wf f -> lex_keyword f = Some (t, g) ->
  adv 1 f g /\ is_valid t = true /\ plain_ty t = true /\
  match type_value t with Some v => bytes v | None => True end.
Proof.
  intros Hw. unfold lex_keyword.
  destruct (if negb _ && negb _ then _ else _) as [k h] eqn:E.
  assert (Hk : (k = None /\ h = f) \/ (k = Some T_SelfKeyword /\ adv 1 f h)).
  { destruct (negb _ && negb _); [|left; injection E as <- <-; auto].
    destruct (match_ f (s2l "self")) as [h'|] eqn:Em; [|left; injection E as <- <-; auto].
    apply match_rest in Em. destruct Em as [Hr ->].
    destruct (_ || _).
    - right. injection E as <- <-. split; [reflexivity|]. adv_solve.
    - left. injection E as <- <-. split; [reflexivity|].
      apply (advance_rewind f (s2l "self") _ Hw Hr). intros H. simpl in H. intuition discriminate. }
  intros H.
  assert (Hself : forall u, (match k with Some t => Some (t, h) | None => None end = Some (t, g) -> u) ->
                  (match k with Some t => Some (t, h) | None => None end = Some (t, g) -> u)) by auto.
  assert (Hs : match k with Some t => Some (t, h) | None => None end = Some (t, g) ->
    adv 1 f g /\ is_valid t = true /\ plain_ty t = true /\
    match type_value t with Some v => bytes v | None => True end).
  { destruct Hk as [[-> ->]|[-> Ha]]; [discriminate|]. intros H'. injection H' as <- <-.
    split; [exact Ha|]. cbn. repeat split; repeat constructor. }
  destruct (n_rem (l_names h) =? 0); [|auto].
  destruct (match_keyword h keywords) as [[t' g']|] eqn:Em; [|auto].
  injection H as -> ->. apply match_keyword_spec in Em. destruct Em as (s & Hin & Hm).
  apply keywords_ok in Hin. destruct Hin as (Hl & Hv & Hp & Hby). split; [|auto].
  apply match_adv in Hm. subst g. destruct Hk as [[-> ->]|[-> Ha]].
  - eapply adv_le; [apply adv_advance_n|exact Hl].
  - adv_solve.
Qed.

Lemma lex_word_post C f : pre f -> post C (lex_word f) (step_ok f).
Proof.
  intros [Hw Hb Ht Hs]. unfold lex_word. destruct (lex_keyword f) as [[t g]|] eqn:E.
  - apply lex_keyword_adv in E; [|exact Hw]. destruct E as (Ha & Hv & Hp & Hby). cbv zeta.
    split_ifs; cbn [post step_ok].
    + split; [|split; [|reflexivity]].
      * apply tok_ok_tkl; [adv_solve|]. destruct (type_value t); auto using bytes_nil.
      * apply upd_of_adv; [|exact Hs]. cbn [ty tkl]. change (need T_SymbolKey) with 1%nat. adv_solve.
    + split; [tok_solve|]. split; [|exact Hp]. apply upd_of_adv; [|exact Hs].
      cbn [ty tk]. unfold need. rewrite Hv. exact Ha.
  - cbv zeta. split_ifs.
    + apply plain_post; [exact Hs|]. apply consume_bare_name_or_constant_post; reflexivity.
    + apply plain_post; [exact Hs|]. apply consume_bare_name_or_constant_post; reflexivity.
    + apply post_bind. eapply post_weaken; [apply non_ws_loop_post; adv_lia | exact (fun _ H => H) |].
      intros [s g] [H1 H2]; cbn [fst snd] in *. cbn [post step_ok].
      split; [tok_solve|]. split; [|reflexivity]. apply upd_of_adv; [|exact Hs].
      eapply adv_le; [exact H1|cbn; lia].
Qed.

(** ** The big switch *)

Lemma step_leaf f t g : stack_ok f -> cons_ok f (t, g) -> step_ok f (t, g, None).
Proof.
  intros Hs (H1 & H2 & H3); cbn [fst snd step_ok] in *.
  split; [exact H1|]. split; [apply upd_of_adv; assumption|exact H3].
Qed.
Lemma ret_post C f g t : stack_ok f -> adv (need t) f g -> plain_ty t = true -> post C (ret g t) (step_ok f).
Proof.
  intros Hs Ha Hp. cbn [post ret]. apply step_leaf; [exact Hs|].
  split; [cbn [fst]; apply tok_ok_tk; eapply adv_le; [exact Ha|lia]|]. split; assumption.
Qed.

Lemma nested_post C f g t l s :
  stack_ok f -> adv 1 f g -> bytes s -> nested_ok g t (Some l) ->
  post C (Ok (tkl g t s, g, Some l)) (step_ok f).
Proof.
  intros Hs Ha Hb Hn. cbn [post step_ok]. split; [apply tok_ok_tkl; [adv_solve|auto]|].
  split; [|exact Hn]. apply upd_of_adv; [|exact Hs]. eapply adv_le; [exact Ha|]. unfold need. destruct (is_valid _); lia.
Qed.

(** A consumer of a delimited literal, started [g] with at least one character of
    [f] consumed. *)
Definition consumer_ok (f : lx) (consumer : lx -> N -> N -> res bres) : Prop :=
  forall C g a b, adv 1 f g -> a < 256 -> b <> 0 -> post C (consumer g a b) (step_ok f).

Lemma dq_ok f bt et : stack_ok f -> pair_ty bt et -> consumer_ok f (consume_double_quoted_string bt et).
Proof.
  intros Hs Hp C g a b Hg Ha Hb. apply nested_post; [exact Hs|exact Hg|apply bytes_one, Ha|].
  left. exists a, b, et. auto.
Qed.
Lemma regexp_ok f : stack_ok f -> consumer_ok f consume_regexp.
Proof.
  intros Hs C g a b Hg Ha Hb. apply nested_post; [exact Hs|exact Hg|apply bytes_one, Ha|].
  right. left. exists a, b. auto.
Qed.
Lemma words_ok f t it : stack_ok f -> words_ty t it -> consumer_ok f (consume_quoted_array t it).
Proof.
  intros Hs Hp C g a b Hg Ha Hb. apply nested_post; [exact Hs|exact Hg|apply bytes_one, Ha|].
  right. right. left. exists a, b, it. auto.
Qed.

Lemma tok_ok_shift m f g t : adv m f g -> tok_ok g t -> tok_ok f t.
Proof.
  intros Ha [H1 H2 H3 H4]. split; [exact H1| | |].
  - rewrite H2. eapply adv_ws; eauto.
  - destruct H3 as [[H3 H3']|(k & H3 & H3')].
    + left. rewrite H3, H3', (adv_tline _ _ _ Ha), (adv_tcol _ _ _ Ha). auto.
    + right. destruct Ha as (j & _ & ->). rewrite advance_n_plus in *. eauto.
  - intros Hw Hb. apply H4; [eapply wf_adv; eauto|]. rewrite (adv_input _ _ _ Ha). exact Hb.
Qed.
Lemma cons_ok_shift m f g p : adv m f g -> cons_ok g p -> cons_ok f p.
Proof.
  intros Ha (H1 & H2 & H3). split; [eapply tok_ok_shift; eauto|]. split; [|exact H3]. adv_solve.
Qed.

Lemma sq_ok f : stack_ok f -> consumer_ok f (fun g a b => plain (consume_single_quoted_string g a b)).
Proof.
  intros Hs C g a b Hg Ha Hb. apply plain_post; [exact Hs|].
  eapply post_weaken; [apply consume_single_quoted_string_post; exact Ha | exact (fun _ H => H) |].
  intros p Hp. eapply cons_ok_shift; eauto.
Qed.
Lemma percent_symbol_ok f : stack_ok f -> consumer_ok f consume_percent_symbol.
Proof.
  intros Hs C g a b Hg Ha Hb. unfold consume_percent_symbol. apply post_bind.
  eapply post_weaken; [apply consume_single_quoted_string_post'; exact Ha | exact (fun _ H => H) |].
  intros [t h] (H1 & H2 & H3); cbn [fst snd] in *. cbn [post]. apply step_leaf; [exact Hs|].
  split; [cbn [fst]; apply tok_ok_set_ty; eapply tok_ok_shift; eauto|]. split; [|reflexivity].
  cbn [fst snd ty set_ty]. change (need T_Symbol) with 1%nat. adv_solve.
Qed.

Lemma delimiter_nz c : char_can_be_string_or_regexp_delimiter c = true -> c <> 0.
Proof. intros H ->. discriminate. Qed.

Lemma consume_percent_string_post C f consumer l :
  wf f -> bytes (l_input f) -> stack_ok f -> consumer_ok f consumer ->
  forall f0, adv 1 f0 f -> (forall p, step_ok f p -> step_ok f0 p) -> stack_ok f0 ->
  post C (consume_percent_string f consumer l) (step_ok f0).
Proof.
  intros Hw Hb Hs Hc f0 Hf0 Hshift Hs0. unfold consume_percent_string. cbv zeta.
  assert (Ha : adv 1 f (advance_n (if l then 2 else 1) f)) by (destruct l; cbn [advance_n]; adv_solve).
  assert (Hlt : (if l then peek f else current_char f) < 256)
    by (destruct l; [apply peek_byte|apply current_char_byte]; assumption).
  destruct (0 <? n_rem (l_names f)); [apply ret_post; [exact Hs0|exact Hf0|reflexivity]|].
  split_ifs.
  1-5: eapply post_weaken; [apply Hc; [exact Ha| |] | exact (fun _ H => H) | exact Hshift];
    try reflexivity; try discriminate; try exact Hlt.
  - apply delimiter_nz. assumption.
  - apply ret_post; [exact Hs0|exact Hf0|reflexivity].
Qed.

Lemma upd_shift k j f f' : upd k (advance_n j f) f' -> upd (j + k) f f'.
Proof. intros (h & b & -> & Hs). exists h, b. rewrite advance_n_plus in *. auto. Qed.
Lemma step_ok_shift m f g p : adv m f g -> step_ok g p -> step_ok f p.
Proof.
  intros Ha. destruct p as [[t f'] n]. cbn [step_ok]. intros (H1 & (k & Hk & Hu) & H3).
  split; [eapply tok_ok_shift; eauto|]. split; [|exact H3].
  destruct Ha as (j & _ & ->). exists (j + k)%nat. split; [lia|]. apply upd_shift, Hu.
Qed.

Lemma advance_to_stack f i : stack_ok f -> stack_ok (set_heredocs (advance_to (i - l_idx f) f i) []).
Proof. intros _. constructor. Qed.

Lemma lex_switch_post f :
  pre f -> post (crash_ev (l_input f)) (lex_switch f) (step_ok f).
Proof.
  intros Hpre. pose proof Hpre as [Hw Hb Ht Hs].
  assert (Hret : forall g t, adv 1 f g -> is_valid t = true -> plain_ty t = true ->
            post (crash_ev (l_input f)) (ret g t) (step_ok f)).
  { intros g t Ha Hv Hp. apply ret_post; auto. unfold need. rewrite Hv. exact Ha. }
  assert (Hop : forall g t s, adv 1 f g -> bytes s -> is_valid t = true -> plain_ty t = true ->
            post (crash_ev (l_input f)) (Ok (tkl g t s, g, None)) (step_ok f)).
  { intros g t s Ha Hbs Hv Hp. cbn [post]. apply step_leaf; [exact Hs|].
    split; [cbn [fst]; apply tok_ok_tkl; [adv_solve|auto]|]. split; [|exact Hp].
    cbn [fst snd ty tkl]. unfold need. rewrite Hv. exact Ha. }
  unfold lex_switch. cbv zeta.
  set (c := current_char f).
  destruct (c =? "="%ch) eqn:E1.
  { split_ifs; try (apply Hret; [adv_solve|reflexivity|reflexivity]).
    all: match goal with |- context [match ?x with Some _ => _ | None => _ end] => destruct x as [g|] eqn:Em end.
    all: try (apply Hret; [adv_solve|reflexivity|reflexivity]).
    destruct (_ =? 1)%nat; [|discriminate]. apply match_adv in Em.
    assert (Hg : adv 1 f g) by (subst g; adv_solve).
    apply post_bind. eapply post_weaken; [apply begin_doc_loop_post; adv_lia | exact (fun _ H => H) |].
    intros [s h] [H1 H2]; cbn [fst snd] in *. apply Hop; [adv_solve| |reflexivity|reflexivity].
    apply bytes_app; [|apply bytes_app; [apply bytes_s2l|repeat constructor]].
    apply H2; [eapply wf_adv; eauto| rewrite (adv_input _ _ _ Hg); exact Hb | apply bytes_s2l]. }
  destruct (c =? "+"%ch); [split_ifs; try (apply Hret; [adv_solve|reflexivity|reflexivity]); apply Hop; [adv_solve|apply bytes_s2l|reflexivity|reflexivity]|].
  destruct (c =? "-"%ch); [split_ifs; try (apply Hret; [adv_solve|reflexivity|reflexivity]); apply Hop; [adv_solve|apply bytes_s2l|reflexivity|reflexivity]|].
  destruct (c =? "*"%ch); [split_ifs; try (apply Hret; [adv_solve|reflexivity|reflexivity])|].
  destruct (c =? "/"%ch).
  { assert (Hr : post (crash_ev (l_input f)) (consume_regexp (advance f) "/"%ch "/"%ch) (step_ok f))
      by (apply (regexp_ok f Hs); [adv_solve|reflexivity|discriminate]).
    split_ifs; try assumption; try (apply Hret; [adv_solve|reflexivity|reflexivity]).
    destruct (ty (l_last (advance f))); try exact Hr;
    split_ifs; try exact Hr; apply Hret; try adv_solve; reflexivity. }
  destruct (c =? "%"%ch).
  { assert (Hcp : forall consumer l, consumer_ok (advance f) consumer ->
      post (crash_ev (l_input f)) (consume_percent_string (advance f) consumer l) (step_ok f)).
    { intros consumer l Hc. apply consume_percent_string_post; auto.
      - adv_solve.
      - intros p. apply step_ok_shift with 1%nat. adv_solve. }
    assert (Hs' : stack_ok (advance f)) by exact Hs.
    split_ifs; try (apply Hret; [adv_solve|reflexivity|reflexivity]); apply Hcp.
    - apply sq_ok, Hs'.
    - apply dq_ok; [exact Hs'|]. unfold pair_ty; auto.
    - apply regexp_ok, Hs'.
    - apply percent_symbol_ok, Hs'.
    - apply dq_ok; [exact Hs'|]. unfold pair_ty; auto.
    - apply words_ok; [exact Hs'|]. left; reflexivity.
    - apply words_ok; [exact Hs'|]. left; reflexivity.
    - apply words_ok; [exact Hs'|]. right; reflexivity.
    - apply words_ok; [exact Hs'|]. right; reflexivity.
    - apply dq_ok; [exact Hs'|]. unfold pair_ty; auto. }
  destruct (c =? "!"%ch); [split_ifs; try (apply Hret; [adv_solve|reflexivity|reflexivity]); apply Hop; [adv_solve|apply bytes_s2l|reflexivity|reflexivity]|].
  destruct (c =? "<"%ch) eqn:Elt.
  { assert (Hh : current_char (advance f) =? "<"%ch = true ->
      post (crash_ev (l_input f)) (consume_heredoc (advance (advance f))) (step_ok f)).
    { intros Elt2. assert (Hi : (l_idx f < l_size f)%nat) by (eapply current_char_eq_nz; [exact Elt|discriminate]).
      eapply post_weaken; [apply consume_heredoc_post | exact (fun _ H => H) |].
      - split; auto.
      - rewrite !advance_idx, !advance_input.
        assert (Hsp : l_input f = firstn (l_idx f) (l_input f) ++ "<"%ch :: rest (advance f)).
        { apply N.eqb_eq in Elt. rewrite <- Elt. subst c. rewrite <- (rest_cons f Hw Hi).
          symmetry. apply firstn_skipn. }
        assert (Hln : length (firstn (l_idx f) (l_input f)) = l_idx f)
          by (apply firstn_length_le; unfold wf in Hw; lia).
        rewrite Hsp. rewrite firstn_app. apply in_or_app. right.
        rewrite Hln. replace (S (S (l_idx f)) - l_idx f)%nat with 2%nat by lia. left. reflexivity.
      - rewrite !advance_input. apply (contains_rest _ _ (rest (advance (advance f)))).
        assert (Hi2 : (l_idx (advance f) < l_size (advance f))%nat) by (eapply current_char_eq_nz; [exact Elt2|discriminate]).
        rewrite (rest_cons f Hw Hi), (rest_cons (advance f) (wf_advance _ Hw) Hi2).
        apply N.eqb_eq in Elt, Elt2. subst c. rewrite Elt, Elt2. reflexivity.
      - intros p. apply step_ok_shift with 2%nat. adv_solve. }
    destruct (current_char (advance f) =? "<"%ch); [specialize (Hh eq_refl)|clear Hh].
    all: split_ifs; try exact Hh; apply Hret; try adv_solve; reflexivity. }
  destruct (c =? ">"%ch); [split_ifs; apply Hret; try adv_solve; reflexivity|].
  destruct (c =? "&"%ch); [split_ifs; apply Hret; try adv_solve; reflexivity|].
  destruct (c =? "|"%ch); [split_ifs; apply Hret; try adv_solve; reflexivity|].
  destruct (c =? "^"%ch); [split_ifs; apply Hret; try adv_solve; reflexivity|].
  destruct (c =? "~"%ch); [split_ifs; try (apply Hret; [adv_solve|reflexivity|reflexivity]); apply Hop; [adv_solve|apply bytes_s2l|reflexivity|reflexivity]|].
  destruct (c =? "?"%ch).
  { split_ifs.
    - cbn [post ret step_ok]. split; [|split; [|reflexivity]].
      + apply (tok_ok_tk f (advance f)). adv_solve.
      + exists 1%nat. split; [cbn; lia|]. exists (l_heredocs f), true. split; [reflexivity|]. exact Hs.
    - apply post_bind.
      eapply post_weaken; [apply (consume_escaped_byte_post (advance (advance f)) []); auto | exact (fun _ H => H) |].
      intros [[err buf] g] (H1 & H2 & H3); cbn [fst snd] in *.
      destruct H3 as [-> | [-> | ->]].
      + apply Hop; [adv_solve| |reflexivity|reflexivity]. apply H2; auto using bytes_nil.
      + cbn [post]. apply step_leaf; [exact Hs|]. cons_leaf.
      + cbn [post]. apply step_leaf; [exact Hs|]. cons_leaf.
    - apply Hop; [adv_solve| |reflexivity|reflexivity]. apply bytes_one. apply current_char_byte; auto. }
  destruct (c =? ":"%ch).
  { split_ifs; try (apply Hret; [adv_solve|reflexivity|reflexivity]).
    - apply (dq_ok f); [exact Hs| |adv_solve|reflexivity|discriminate]. unfold pair_ty; auto.
    - apply post_bind. eapply post_weaken; [apply consume_single_quoted_string_post'; reflexivity | exact (fun _ H => H) |].
      intros [t h] (H1 & H2 & H3); cbn [fst snd] in *. apply Hop; [adv_solve| |reflexivity|reflexivity].
      apply bytes_cstr. destruct (tok_bytes _ _ H1 Hw Hb) as [H4 _]. unfold literal_or_blank.
      destruct (lit t); [exact H4|apply bytes_nil].
    - cbn [post ret step_ok]. split; [|split; [|reflexivity]].
      + apply (tok_ok_tk f (advance f)). adv_solve.
      + exists 1%nat. split; [cbn; lia|]. exists (l_heredocs f), false. split; [reflexivity|]. exact Hs.
    - apply plain_post; [exact Hs|]. eapply post_weaken; [apply consume_symbol_post | exact (fun _ H => H) |].
      intros p Hp. apply (cons_ok_shift 1 f (advance f)); [adv_solve|exact Hp]. }
  destruct (c =? "@"%ch).
  { split_ifs.
    - apply post_bind. eapply post_weaken; [apply (consume_word_token_post _ (advance f)); reflexivity | exact (fun _ H => H) |].
      intros [t h] (H1 & H2 & H3); cbn [fst snd] in *. cbn [post]. apply step_leaf; [exact Hs|].
      split; [|split; [|exact H3]].
      + cbn [fst]. apply tok_ok_set_lit; [eapply tok_ok_shift; [|exact H1]; apply adv_advance|].
        intros _ _. apply bytes_cons; [reflexivity|]. apply bytes_cstr.
        destruct (tok_bytes _ _ H1 Hw Hb) as [H4 _]. unfold literal_or_blank.
        destruct (lit t); [exact H4|apply bytes_nil].
      + cbn [fst snd ty set_lit]. eapply adv_le; [eapply adv_trans; [apply adv_advance|exact H2|apply le_n]|lia].
    - apply plain_post; [exact Hs|]. apply consume_word_token_post; reflexivity. }
  destruct (c =? "$"%ch) eqn:Ed.
  { split_ifs.
    - apply Hop; [adv_solve|repeat constructor|reflexivity|reflexivity].
    - apply plain_post; [exact Hs|]. apply consume_nth_ref_post; auto. apply N.eqb_eq, Ed.
    - apply plain_post; [exact Hs|]. apply consume_global_variable_post. }
  destruct (c =? "."%ch); [split_ifs; apply Hret; try adv_solve; reflexivity|].
  destruct (c =? "{"%ch); [apply Hret; try adv_solve; reflexivity|].
  destruct (c =? "["%ch); [split_ifs; apply Hret; try adv_solve; reflexivity|].
  destruct (c =? "("%ch); [apply Hret; try adv_solve; reflexivity|].
  destruct (c =? "}"%ch); [apply Hret; try adv_solve; reflexivity|].
  destruct (c =? "]"%ch); [apply Hret; try adv_solve; reflexivity|].
  destruct (c =? ")"%ch); [apply Hret; try adv_solve; reflexivity|].
  destruct (c =? ch_nl).
  { destruct (l_heredocs (advance f)) as [|i hs] eqn:Eh; cbn [post].
    - apply step_leaf; [exact Hs|]. cons_leaf.
    - cbn [step_ok]. split; [apply (tok_ok_tk f (advance f)); adv_solve|]. split; [|reflexivity].
      destruct (advance_to_adv (i - l_idx (advance f)) (advance f) i) as (k & _ & Hk).
      exists (S k). split; [cbn; lia|]. exists [], (l_ternary (advance_n (S k) f)).
      split; [|constructor]. rewrite Hk. reflexivity. }
  destruct (c =? ";"%ch); [apply Hret; try adv_solve; reflexivity|].
  destruct (c =? ","%ch); [apply Hret; try adv_solve; reflexivity|].
  destruct (c =? """"%ch).
  { apply (dq_ok f); [exact Hs| |adv_solve|reflexivity|discriminate]. unfold pair_ty; auto. }
  destruct (c =? "'"%ch).
  { apply (sq_ok f); [exact Hs|adv_solve|reflexivity|discriminate]. }
  destruct (c =? "`"%ch).
  { split_ifs; [apply Hop; [adv_solve|apply bytes_s2l|reflexivity|reflexivity]|].
    apply (dq_ok f); [exact Hs| |adv_solve|reflexivity|discriminate]. unfold pair_ty; auto. }
  destruct (c =? "#"%ch) eqn:Eh.
  { split_ifs.
    - apply post_bind. eapply post_weaken; [apply hash_doc_loop_post1; exact Eh | exact (fun _ H => H) |].
      intros [s h] [H1 H2]; cbn [fst snd] in *. apply Hop; [adv_solve| |reflexivity|reflexivity].
      apply H2; auto using bytes_nil.
    - apply post_bind. eapply post_weaken; [apply comment_loop_post; adv_lia | exact (fun _ H => H) |].
      intros h H1. apply Hret; [exact H1|reflexivity|reflexivity]. }
  destruct (isdigit c); [apply plain_post; [exact Hs|]; apply consume_numeric_post|].
  split_ifs; try (apply Hret; [adv_solve|reflexivity|reflexivity]).
  apply lex_word_post. exact Hpre.
Qed.

(** * LexLoops: every loop of the lexer terminates, only advances the cursor, and
    collects bytes of its input *)
From Coq Require Import Strings.String NArith ZArith Bool Arith List Lia ZifyBool ZifyNat ZifyN.
From Verif Require Import Base Token Spec LexModel LexBasics.
Import ListNotations.
Open Scope N_scope.

(** Buffers stay byte strings. *)
Definition keeps (f : lx) (buf buf' : str) : Prop :=
  wf f -> bytes (l_input f) -> bytes buf -> bytes buf'.

Lemma keeps_refl f b : keeps f b b.
Proof. unfold keeps; auto. Qed.
Lemma keeps_app f b x : (wf f -> bytes (l_input f) -> bytes x) -> keeps f b (b ++ x).
Proof. unfold keeps; intros; apply bytes_app; auto. Qed.
Lemma keeps_cur f b : keeps f b (b ++ [current_char f]).
Proof. apply keeps_app. intros. apply bytes_one, current_char_byte; auto. Qed.
Lemma keeps_trans m f g a b c : adv m f g -> keeps f a b -> keeps g b c -> keeps f a c.
Proof.
  unfold keeps. intros Ha H1 H2 Hw Hb Hx. apply H2; auto.
  - eapply wf_adv; eauto.
  - rewrite (adv_input _ _ _ Ha). exact Hb.
Qed.

Global Hint Resolve adv_refl adv_advance adv_if_advance keeps_refl keeps_cur : lex.

Ltac adv_lia :=
  unfold loop_fuel in *;
  repeat match goal with
  | H : adv _ _ _ |- _ => pose proof (adv_idx _ _ _ H); pose proof (adv_size _ _ _ H); clear H
  end;
  repeat match goal with
  | |- context [advance_n ?k ?f] => rewrite ?advance_n_idx, ?advance_n_size
  | H : context [advance_n ?k ?f] |- _ => rewrite ?advance_n_idx, ?advance_n_size in H
  | |- context [l_cur (advance ?f)] => rewrite advance_idx
  | H : context [l_cur (advance ?f)] |- _ => rewrite advance_idx in H
  | |- context [l_size (advance ?f)] => rewrite advance_size
  | H : context [l_size (advance ?f)] |- _ => rewrite advance_size in H
  end; lia.

Section Crash.
Context (C : reason -> Prop).

Definition loop_post (m : nat) (f : lx) (buf : str) (p : str * lx) : Prop :=
  adv m f (snd p) /\ keeps f buf (fst p).

Lemma loop_post_step a b m f g x y p :
  adv a f g -> keeps f x y -> (m <= a + b)%nat -> loop_post b g y p -> loop_post m f x p.
Proof.
  intros Ha Hk Hm [H1 H2]. split.
  - eapply adv_trans; eauto.
  - eapply keeps_trans; eauto.
Qed.

Ltac loop_step :=
  match goal with
  | H : loop_post _ _ _ ?p |- loop_post _ _ _ ?p =>
    eapply loop_post_step; [ | | | exact H]; [eauto with lex | eauto with lex | lia]
  end.

Lemma skip_ws_loop_post fuel f found :
  (l_size f - l_idx f < fuel)%nat ->
  post C (skip_ws_loop fuel f found) (fun p => adv 0 f (snd p)).
Proof.
  revert f found. induction fuel as [|fuel IH]; intros f found Hf; [lia|].
  cbn [skip_ws_loop]. cbv zeta.
  destruct ((current_char f =? " "%ch) || _ || _) eqn:E.
  2:{ simpl. apply adv_refl. }
  assert (Hi : (l_idx f < l_size f)%nat).
  { apply (current_char_pred_nz (fun c => (c =? " "%ch) || (c =? ch_tab) || (c =? ch_bs))); [|reflexivity].
    apply orb_true_iff in E. destruct E as [E|E].
    - rewrite E. reflexivity.
    - apply andb_true_iff in E. destruct E as [-> _]. apply orb_true_r. }
  eapply post_weaken; [apply IH| auto | ].
  - destruct (current_char f =? ch_bs); adv_lia.
  - intros [b g] Hg. simpl in *. eapply adv_trans; [apply adv_advance| |].
    + eapply adv_trans; [apply adv_if_advance| exact Hg | apply le_n].
    + lia.
Qed.

Lemma skip_whitespace_post f : post C (skip_whitespace f) (fun p => adv 0 f (snd p)).
Proof. apply skip_ws_loop_post. adv_lia. Qed.

Lemma id_char_0 : is_identifier_char 0 = false. Proof. reflexivity. Qed.

Lemma word_loop_post fuel f buf :
  (l_size f - l_idx f < fuel)%nat ->
  post C (word_loop fuel f buf) (loop_post 1 f buf).
Proof.
  revert f buf. induction fuel as [|fuel IH]; intros f buf Hf; [lia|].
  cbn [word_loop]. cbv zeta.
  destruct (is_identifier_char (current_char (advance f))) eqn:E.
  - assert (Hi : (l_idx (advance f) < l_size (advance f))%nat)
      by (eapply current_char_pred_nz; [exact E | apply id_char_0]).
    eapply post_weaken; [apply IH; adv_lia | auto |].
    intros p Hp. loop_step.
  - simpl. split; simpl; eauto with lex.
Qed.

Lemma consume_word_post f : post C (consume_word f) (loop_post 1 f []).
Proof. apply word_loop_post. adv_lia. Qed.

Lemma non_ws_loop_post fuel f buf :
  (l_size f - l_idx f < fuel)%nat ->
  post C (non_ws_loop fuel f buf) (loop_post 1 f buf).
Proof.
  revert f buf. induction fuel as [|fuel IH]; intros f buf Hf; [lia|].
  cbn [non_ws_loop]. cbv zeta.
  match goal with |- context [if ?b then _ else _] => destruct b eqn:E end.
  - assert (Hi : (l_idx (advance f) < l_size (advance f))%nat).
    { apply current_char_nz. destruct (current_char (advance f) =? 0); [discriminate E|reflexivity]. }
    eapply post_weaken; [apply IH; adv_lia | auto |].
    intros p Hp. loop_step.
  - simpl. split; simpl; eauto with lex.
Qed.

Lemma digit_loop_post fuel p f buf :
  p 0 = false ->
  (l_size f - l_idx f < fuel)%nat ->
  post C (digit_loop fuel p f buf) (loop_post 1 f buf).
Proof.
  intros Hp. revert f buf. induction fuel as [|fuel IH]; intros f buf Hf; [lia|].
  cbn [digit_loop]. cbv zeta.
  set (g := if current_char (advance f) =? "_"%ch then advance (advance f) else advance f).
  assert (Hg : adv 1 f g).
  { eapply adv_trans; [apply adv_advance | apply adv_if_advance | lia]. }
  destruct (p (current_char g)) eqn:E.
  - assert (Hi : (l_idx g < l_size g)%nat) by (eapply current_char_pred_nz; eauto).
    eapply post_weaken; [apply IH; adv_lia | auto |].
    intros q Hq. loop_step.
  - simpl. split; simpl; eauto with lex.
Qed.

Lemma skip_blanks_post fuel f :
  (l_size f - l_idx f < fuel)%nat -> post C (skip_blanks fuel f) (adv 0 f).
Proof.
  revert f. induction fuel as [|fuel IH]; intros f Hf; [lia|].
  cbn [skip_blanks]. destruct (current_char f =? " "%ch) eqn:E; [|simpl; apply adv_refl].
  assert (Hi : (l_idx f < l_size f)%nat) by (eapply current_char_eq_nz; [exact E|discriminate]).
  eapply post_weaken; [apply IH; adv_lia | auto |].
  intros g Hg. eapply adv_trans; [ | exact Hg | ]; [apply adv_advance | lia].
Qed.

Lemma begin_doc_loop_post fuel f buf :
  (l_size f - l_idx f < fuel)%nat ->
  post C (begin_doc_loop fuel f buf) (loop_post 1 f buf).
Proof.
  revert f buf. induction fuel as [|fuel IH]; intros f buf Hf; [lia|].
  cbn [begin_doc_loop]. cbv zeta.
  destruct (current_char (advance f) =? 0) eqn:E0.
  { simpl. split; simpl; eauto with lex. }
  assert (Hi : (l_idx (advance f) < l_size (advance f))%nat) by (apply current_char_nz; exact E0).
  assert (Hrec : post C (begin_doc_loop fuel (advance f) (buf ++ [current_char f])) (loop_post 1 f buf)).
  { eapply post_weaken; [apply IH; adv_lia | auto |].
    intros p Hp. loop_step. }
  destruct (c_col (l_cur (advance f)) =? 0)%nat; [|exact Hrec].
  unfold match_ in *.
  destruct (l_size (advance f) <? _)%nat; [exact Hrec|].
  destruct (str_eqb _ _); [|exact Hrec].
  destruct ((_ <? _)%nat && _); [exact Hrec|].
  simpl. split; simpl; eauto with lex.
  exists 5%nat. split; [lia|reflexivity].
Qed.

Lemma hash_doc_loop_post fuel f marker buf :
  (l_size f - l_idx f < fuel)%nat ->
  post C (hash_doc_loop fuel f marker buf) (loop_post 0 f buf).
Proof.
  revert f marker buf. induction fuel as [|fuel IH]; intros f marker buf Hf; [lia|].
  cbn [hash_doc_loop]. cbv zeta.
  destruct (current_char f =? 0) eqn:E0; [simpl; split; simpl; auto with lex|].
  apply current_char_nz in E0.
  destruct (_ && _ && _); [simpl; split; simpl; auto with lex|].
  assert (Hrec : forall m b, keeps f buf b ->
    post C (hash_doc_loop fuel (advance f) m b) (loop_post 0 f buf)).
  { intros m b Hk. eapply post_weaken; [apply IH; adv_lia | auto |].
    intros p Hp. loop_step. }
  destruct (_ || _); apply Hrec; auto with lex.
  destruct (_ || _); auto with lex.
Qed.

(** From a '#' at the cursor at least one character is consumed. *)
Lemma hash_doc_loop_post1 f buf :
  (current_char f =? "#"%ch) = true ->
  post C (hash_doc_loop (loop_fuel f) f true buf) (loop_post 1 f buf).
Proof.
  intros E. assert (Hi : (l_idx f < l_size f)%nat) by (eapply current_char_eq_nz; [exact E|discriminate]).
  unfold loop_fuel. assert (Hr : exists n, n = S (l_size f - l_idx f)) by eauto. destruct Hr as [n Hn].
  rewrite <- Hn. cbn [hash_doc_loop]. cbv zeta.
  apply N.eqb_eq in E.
  replace (current_char f =? 0) with false by (rewrite E; reflexivity).
  cbn [negb andb orb].
  replace ((current_char f =? ch_nl) || (current_char f =? ch_cr)) with false by (rewrite E; reflexivity).
  eapply post_weaken; [apply hash_doc_loop_post; adv_lia | auto |].
  intros p Hp. loop_step.
Qed.

Lemma comment_loop_post fuel f :
  (l_size f - l_idx f < fuel)%nat -> post C (comment_loop fuel f) (adv 1 f).
Proof.
  revert f. induction fuel as [|fuel IH]; intros f Hf; [lia|].
  cbn [comment_loop]. cbv zeta.
  destruct (_ && _ && _) eqn:E; [|simpl; auto with lex].
  assert (Hi : (l_idx (advance f) < l_size (advance f))%nat).
  { apply current_char_nz. destruct (current_char (advance f) =? 0); [discriminate E|reflexivity]. }
  eapply post_weaken; [apply IH; adv_lia | auto |].
  intros g Hg. eapply adv_trans; [ | exact Hg | ]; [apply adv_advance | lia].
Qed.

Lemma options_loop_post fuel f buf :
  (l_size f - l_idx f < fuel)%nat ->
  post C (options_loop fuel f buf) (loop_post 0 f buf).
Proof.
  revert f buf. induction fuel as [|fuel IH]; intros f buf Hf; [lia|].
  cbn [options_loop]. cbv zeta.
  destruct (is_regexp_option (current_char f)) eqn:E; [|simpl; split; simpl; auto with lex].
  assert (Hi : (l_idx f < l_size f)%nat) by (eapply current_char_pred_nz; [exact E|reflexivity]).
  eapply post_weaken; [apply IH; adv_lia | auto |].
  intros p Hp. loop_step.
Qed.

Lemma heredoc_name_loop_post fuel f delim name :
  delim <> 0 ->
  (l_size f - l_idx f < fuel)%nat ->
  post C (heredoc_name_loop fuel f delim name)
    (fun p => adv 0 f (snd p) /\ match fst p with Some n => keeps f name n | None => True end).
Proof.
  intros Hd. revert f name. induction fuel as [|fuel IH]; intros f name Hf; [lia|].
  cbn [heredoc_name_loop]. cbv zeta.
  destruct (current_char f =? delim) eqn:E.
  { simpl. split; eauto using adv_le with lex. }
  destruct ((_ || _) || _) eqn:E0; [simpl; auto with lex|].
  assert (Hi : (l_idx f < l_size f)%nat).
  { apply current_char_nz. destruct (current_char f =? 0); [|reflexivity].
    rewrite orb_true_r in E0. discriminate. }
  eapply post_weaken; [apply IH; adv_lia | auto |].
  intros [o g] [H1 H2]. simpl in *. split.
  - eapply adv_trans; [ | exact H1 | ]; [apply adv_advance | lia].
  - destruct o; [|exact I]. eapply keeps_trans; [ | | exact H2]; auto using adv_advance with lex.
Qed.

Lemma next_line_loop_post fuel f i :
  (l_size f - i < fuel)%nat ->
  post C (next_line_loop fuel f i)
    (fun o => match o with Some j => (i < j <= l_size f)%nat | None => True end).
Proof.
  revert i. induction fuel as [|fuel IH]; intros i Hf; [lia|].
  cbn [next_line_loop]. destruct (heredoc_char f i =? ch_nl) eqn:E.
  { simpl. unfold heredoc_char in E. destruct (l_size f <=? i)%nat eqn:E'; [discriminate|].
    apply Nat.leb_gt in E'. lia. }
  destruct (l_size f <=? i)%nat eqn:E'; [exact I|]. apply Nat.leb_gt in E'.
  eapply post_weaken; [apply IH; lia | auto |].
  intros [j|]; [lia|auto].
Qed.

(** The body collected by the heredoc loop is a stretch of the input. *)
Lemma heredoc_body_loop_post fuel f wd name i doc :
  wf f ->
  (l_size f - i < fuel)%nat -> (i <= l_size f)%nat ->
  post C (heredoc_body_loop fuel f wd name i doc)
    (fun r => match r with
              | inl d => exists n, d = doc ++ firstn n (skipn i (l_input f)) /\ (i + n <= l_size f)%nat
              | inr (d, j) => (i <= j <= l_size f)%nat /\ is_valid_heredoc wd d name = true /\
                  exists n, d = doc ++ firstn n (skipn i (l_input f)) /\ (i + n <= j)%nat
              end).
Proof.
  intros Hw. revert i doc. induction fuel as [|fuel IH]; intros i doc Hf Hi; [lia|].
  cbn [heredoc_body_loop].
  destruct (l_size f <=? i)%nat eqn:E.
  { apply Nat.leb_le in E. destruct (is_valid_heredoc wd doc name) eqn:Ev; simpl.
    - split; [lia|]. split; [exact Ev|]. exists 0%nat. simpl. rewrite app_nil_r. split; [reflexivity|lia].
    - exists 0%nat. simpl. rewrite app_nil_r. split; [reflexivity|lia]. }
  apply Nat.leb_gt in E.
  destruct ((heredoc_char f i =? ch_nl) && is_valid_heredoc wd doc name) eqn:Ev.
  { simpl. apply andb_true_iff in Ev. split; [lia|]. split; [apply Ev|].
    exists 0%nat. simpl. rewrite app_nil_r. split; [reflexivity|lia]. }
  assert (Hc : forall n, (doc ++ [heredoc_char f i]) ++ firstn n (skipn (S i) (l_input f))
                = doc ++ firstn (S n) (skipn i (l_input f))).
  { intros n. rewrite <- app_assoc. f_equal.
    unfold heredoc_char. replace (l_size f <=? i)%nat with false by (symmetry; apply Nat.leb_gt; lia).
    rewrite (skipn_cons i (l_input f) oob) by (unfold wf in Hw; lia). reflexivity. }
  eapply post_weaken; [apply IH; lia | auto |].
  intros [d|[d j]].
  - intros (n & -> & Hn). exists (S n). split; [apply Hc|lia].
  - intros (Hj & Hv & n & -> & Hn). split; [lia|]. split; [exact Hv|].
    exists (S n). split; [apply Hc|lia].
Qed.

Lemma advance_to_adv fuel f i : adv 0 f (advance_to fuel f i).
Proof.
  revert f. induction fuel as [|fuel IH]; intros f; simpl; [apply adv_refl|].
  destruct (l_idx f <? i)%nat; [|apply adv_refl].
  eapply adv_trans; [apply adv_advance | apply IH | lia].
Qed.

Lemma hex_loop_adv n f z : adv 1 f (snd (hex_loop n f z)).
Proof.
  revert f z. induction n as [|n IH]; intros f z; cbn [hex_loop]; cbv zeta; [simpl; apply adv_advance|].
  destruct (isxdigit _); [|simpl; apply adv_advance].
  destruct n; [simpl; apply adv_advance|].
  eapply adv_trans; [apply adv_advance | apply IH | lia].
Qed.
Lemma oct_loop_adv n f z : adv 1 f (snd (oct_loop n f z)).
Proof.
  revert f z. induction n as [|n IH]; intros f z; cbn [oct_loop]; cbv zeta; [simpl; apply adv_advance|].
  destruct (isoctal _); [|simpl; apply adv_advance].
  destruct n; [simpl; apply adv_advance|].
  eapply adv_trans; [apply adv_advance | apply IH | lia].
Qed.

Lemma match_adv f s g : match_ f s = Some g -> g = advance_n (length s) f.
Proof.
  unfold match_. destruct (_ <? _)%nat; [discriminate|]. destruct (str_eqb _ _); [|discriminate].
  destruct (_ && _); [discriminate|]. congruence.
Qed.

End Crash.

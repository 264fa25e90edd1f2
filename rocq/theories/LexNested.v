(** * LexNested: what one step of any lexer guarantees *)
From Coq Require Import Strings.String NArith ZArith Bool Arith List Lia ZifyBool ZifyNat ZifyN.
From Verif Require Import Base Token Spec LexModel LexBasics LexRest LexLoops LexSpec LexEsc LexHeredoc LexSwitch.
Import ListNotations.
Open Scope N_scope.

(** ** States that differ in the cursor and the pair depth *)

Lemma cur_congr f g : l_input f = l_input g -> l_size f = l_size g -> l_cur f = l_cur g ->
  forall k, l_cur (advance_n k f) = l_cur (advance_n k g).
Proof.
  intros Hi Hs Hc k. revert f g Hi Hs Hc. induction k as [|k IH]; intros f g Hi Hs Hc; [exact Hc|].
  cbn [advance_n]. apply IH; [exact Hi|exact Hs|].
  unfold advance. unfold current_char. rewrite Hi, Hs, Hc. destruct (_ =? ch_nl); reflexivity.
Qed.

Record nr (m : nat) (f g : lx) : Prop := Nr {
  nr_input : l_input g = l_input f;
  nr_size : l_size g = l_size f;
  nr_ws : l_ws g = l_ws f;
  nr_tline : l_tline g = l_tline f;
  nr_tcol : l_tcol g = l_tcol f;
  nr_heredocs : l_heredocs g = l_heredocs f;
  nr_stop : l_stop g = l_stop f;
  nr_start : l_start g = l_start f;
  nr_cur : exists k, (m <= k)%nat /\ l_cur g = l_cur (advance_n k f);
}.

Lemma nr_adv m f g : adv m f g -> nr m f g.
Proof.
  intros H. pose proof (adv_frame _ _ _ H) as Hf. destruct H as (k & Hk & Hg).
  split; try (rewrite Hf; reflexivity). exists k. split; [exact Hk|]. rewrite Hg. reflexivity.
Qed.
Lemma nr_refl f : nr 0 f f.
Proof. apply nr_adv, adv_refl. Qed.
Lemma nr_trans a b c f g h : nr a f g -> nr b g h -> (c <= a + b)%nat -> nr c f h.
Proof.
  intros [] [] Hc. split; try congruence.
  destruct nr_cur0 as (j & Hj & Ej). destruct nr_cur1 as (k & Hk & Ek).
  exists (j + k)%nat. split; [lia|]. rewrite Ek, <- advance_n_plus.
  apply cur_congr; [| |exact Ej].
  - rewrite nr_input0. symmetry. apply advance_n_input.
  - rewrite nr_size0. symmetry. apply advance_n_size.
Qed.
Lemma nr_le a b f g : nr a f g -> (b <= a)%nat -> nr b f g.
Proof. intros H Hb. eapply nr_trans; [exact H|apply nr_refl|lia]. Qed.
Lemma nr_depth f d : nr 0 f (set_depth f d).
Proof. split; try reflexivity. exists 0%nat. auto. Qed.
Lemma nr_idx m f g : nr m f g -> (l_idx f + m <= l_idx g)%nat.
Proof. intros []. destruct nr_cur0 as (k & Hk & ->). rewrite advance_n_idx. lia. Qed.
Lemma nr_wf m f g : nr m f g -> wf f -> wf g.
Proof. intros [] H. unfold wf in *. congruence. Qed.
Lemma nr_bytes m f g : nr m f g -> bytes (l_input f) -> bytes (l_input g).
Proof. intros [] H. congruence. Qed.
Lemma nr_pre m f g : nr m f g -> pre f -> pre g.
Proof.
  intros [] []. split; unfold wf, stack_ok in *; try congruence.
  rewrite nr_size0, nr_input0, nr_heredocs0. exact pre_stack.
Qed.

Lemma nr_adv_r m f g : nr (m - 1) f g -> nr m f (advance g).
Proof. intros. eapply nr_trans; [eassumption|apply nr_adv, adv_advance|lia]. Qed.
Lemma nr_advn_r m k f g : nr (m - k) f g -> nr m f (advance_n k g).
Proof. intros. eapply nr_trans; [eassumption|apply nr_adv, adv_advance_n|lia]. Qed.
Lemma nr_depth_r m f g d : nr m f g -> nr m f (set_depth g d).
Proof. intros. eapply nr_trans; [eassumption|apply nr_depth|lia]. Qed.
Lemma nr_trans_r m b f g h : nr b g h -> nr (m - b) f g -> nr m f h.
Proof. intros. eapply nr_trans; [eassumption|eassumption|lia]. Qed.
Lemma nr_transa_r m b f g h : adv b g h -> nr (m - b) f g -> nr m f h.
Proof. intros. eapply nr_trans; [eassumption|apply nr_adv; eassumption|lia]. Qed.
Lemma nr_refl0 f m : (m <= 0)%nat -> nr m f f.
Proof. intros. eapply nr_le; [apply nr_refl|lia]. Qed.

Ltac nr_solve :=
  lazymatch goal with
  | |- nr _ ?f ?f => apply nr_refl0; first [lia | cbn; lia]
  | |- nr _ _ (advance _) => apply nr_adv_r; nr_solve
  | |- nr _ _ (advance_n _ _) => apply nr_advn_r; nr_solve
  | |- nr _ _ (set_depth _ _) => apply nr_depth_r; nr_solve
  | H : nr _ ?g ?h |- nr _ _ ?h => apply (nr_trans_r _ _ _ _ _ H); nr_solve
  | H : adv _ ?g ?h |- nr _ _ ?h => apply (nr_transa_r _ _ _ _ _ H); nr_solve
  end.

Section Toks.
Context (f g : lx) (H : nr 0 f g).

Lemma tok_ok_nr t :
  doc t = None -> tk_ws t = l_ws g ->
  (tk_line t = l_tline g /\ tk_col t = l_tcol g \/ tk_line t = c_line (l_cur g) /\ tk_col t = c_col (l_cur g)) ->
  (wf f -> bytes (l_input f) -> opt_bytes (lit t) /\ bytes (dbl t)) -> tok_ok f t.
Proof.
  destruct H. intros Hd Hw Hp Hb. split; [exact Hd|congruence| |exact Hb].
  destruct Hp as [[H1 H2]|[H1 H2]]; [left; split; congruence|right].
  destruct nr_cur0 as (k & _ & Hk). exists k. rewrite <- Hk. auto.
Qed.
Lemma nr_tk t : tok_ok f (tk g t).
Proof. apply tok_ok_nr; simpl; auto using bytes_nil. Qed.
Lemma nr_tkl t s : (wf f -> bytes (l_input f) -> bytes s) -> tok_ok f (tkl g t s).
Proof. intros. apply tok_ok_nr; simpl; auto using bytes_nil. Qed.
Lemma nr_tkc t : tok_ok f (tkc g t).
Proof. apply tok_ok_nr; simpl; auto using bytes_nil. Qed.
Lemma nr_tkcl t s : (wf f -> bytes (l_input f) -> bytes s) -> tok_ok f (tkcl g t s).
Proof. intros. apply tok_ok_nr; simpl; auto using bytes_nil. Qed.
End Toks.

(** ** Transitions of the nested lexers *)

Definition eval_lexer (f : lx) : lexer := Lexer (sub_lx f "{"%ch "}"%ch) KBase None.
Definition regexp_eval_lexer (f : lx) : lexer := Lexer (set_stop_char f "}"%ch) KBase None.

(** [kstep f' k t k' n']: a lexer of kind [k] produces a token of type [t], becomes
    [k'] with fields [f'] and installs [n']. *)
Inductive kstep (f' : lx) : kind -> ttype -> kind -> option lexer -> Prop :=
| ks_str_invalid et al t : is_valid t = false -> plain_ty t = true ->
    kstep f' (KStr InProgress et al) t (KStr InProgress et al) None
| ks_str_text et al st' : (st' = EvaluateBegin \/ st' = EndToken) ->
    kstep f' (KStr InProgress et al) T_String (KStr st' et al) None
| ks_str_eval et al st : (st = InProgress \/ st = EvaluateBegin) ->
    kstep f' (KStr st et al) T_EvaluateToStringBegin (KStr EvaluateEnd et al) (Some (eval_lexer f'))
| ks_str_end et al st : (st = InProgress \/ st = EndToken) ->
    kstep f' (KStr st et al) et (KStr Done et al) None
| ks_str_evalend et al :
    kstep f' (KStr EvaluateEnd et al) T_EvaluateToStringEnd (KStr InProgress et al) None
| ks_str_done et al : kstep f' (KStr Done et al) T_Eof (KStr Done et al) None
| ks_re_invalid o : kstep f' (KRegexp InProgress o) T_UnterminatedRegexp (KRegexp InProgress o) None
| ks_re_text o o' st' : (st' = EvaluateBegin /\ o' = o \/ st' = EndToken) ->
    kstep f' (KRegexp InProgress o) T_String (KRegexp st' o') None
| ks_re_eval o :
    kstep f' (KRegexp EvaluateBegin o) T_EvaluateToStringBegin (KRegexp EvaluateEnd o) (Some (regexp_eval_lexer f'))
| ks_re_evalend o o' st' : (st' = InProgress /\ o' = o \/ st' = EndToken) ->
    kstep f' (KRegexp EvaluateEnd o) T_EvaluateToStringEnd (KRegexp st' o') None
| ks_re_end o : kstep f' (KRegexp EndToken o) T_InterpolatedRegexpEnd (KRegexp Done o) None
| ks_re_done o : kstep f' (KRegexp Done o) T_Eof (KRegexp Done o) None
| ks_w_invalid st it s d b d' b' : (st = W_InProgress \/ st = W_DynamicStringInProgress) ->
    kstep f' (KWords st it s d b) T_UnterminatedWordArray (KWords st it s d' b') None
| ks_w_word it s d b d' b' st' : (st' = W_InProgress \/ st' = W_EndToken) ->
    kstep f' (KWords W_InProgress it s d b) T_String (KWords st' it s d' b') None
| ks_w_close it s d b d' b' st : (st = W_InProgress \/ st = W_EndToken) ->
    kstep f' (KWords st it s d b) T_RBracket (KWords W_Done it s d' b') None
| ks_w_dynbegin s d b d' b' st : (st = W_InProgress \/ st = W_DynamicStringInProgress) ->
    kstep f' (KWords st true s d b) T_InterpolatedStringBegin (KWords W_DynamicStringBegin true s d' b') None
| ks_w_dyntext it s d b : kstep f' (KWords W_DynamicStringBegin it s d b) T_String (KWords W_EvaluateBegin it s d b) None
| ks_w_eval it s d b :
    kstep f' (KWords W_EvaluateBegin it s d b) T_EvaluateToStringBegin (KWords W_EvaluateEnd it s d b) (Some (eval_lexer f'))
| ks_w_evalend it s d b :
    kstep f' (KWords W_EvaluateEnd it s d b) T_EvaluateToStringEnd (KWords W_DynamicStringInProgress it s d b) None
| ks_w_dynfinish it s d b d' b' :
    kstep f' (KWords W_DynamicStringInProgress it s d b) T_String (KWords W_DynamicStringEnd it s d' b') None
| ks_w_dynend0 it s d b d' b' :
    kstep f' (KWords W_DynamicStringInProgress it s d b) T_InterpolatedStringEnd (KWords W_InProgress it s d' b') None
| ks_w_dynend it s d b st' : (st' = W_InProgress \/ st' = W_EndToken) ->
    kstep f' (KWords W_DynamicStringEnd it s d b) T_InterpolatedStringEnd (KWords st' it s d b) None
| ks_w_done it s d b : kstep f' (KWords W_Done it s d b) T_Eof (KWords W_Done it s d b) None.

(** Rank of a state: smaller ranks are closer to the end when nothing is consumed. *)
Definition rank (k : kind) : nat :=
  match k with
  | KBase => 0
  | KStr st _ _ | KRegexp st _ =>
    match st with Done => 0 | EndToken => 1 | InProgress => 2 | EvaluateEnd => 3 | EvaluateBegin => 4 end
  | KWords st _ _ _ _ =>
    match st with
    | W_Done => 0 | W_EndToken => 1 | W_InProgress => 2 | W_DynamicStringEnd => 3 | W_DynamicStringInProgress => 4
    | W_EvaluateEnd => 5 | W_EvaluateBegin => 6 | W_DynamicStringBegin => 7
    end
  end.
Definition rem (f : lx) : nat := l_size f - l_idx f.

(** Progress of a step that is neither Eof nor an error. *)
Definition progress (f : lx) (k : kind) (f' : lx) (k' : kind) : Prop :=
  (rem f' < rem f)%nat \/ (rem f' <= rem f)%nat /\ (rank k' < rank k)%nat.

(** A step of a nested lexer. *)
Definition kstep_ok (f : lx) (k : kind) (p : kres) : Prop :=
  let '(t, f', k', n') := p in
  tok_ok f t /\ nr 0 f f' /\ kstep f' k (ty t) k' n' /\
  (is_eof (ty t) = false -> is_valid (ty t) = true -> progress f k f' k').

Lemma progress_nr m f k f' k' : (1 <= m)%nat -> (l_idx f < l_size f)%nat -> nr m f f' -> progress f k f' k'.
Proof. intros Hm Hi H. left. unfold rem. pose proof (nr_idx _ _ _ H). pose proof (nr_size _ _ _ H). lia. Qed.
Lemma progress_rank f k f' k' : nr 0 f f' -> (rank k' < rank k)%nat -> progress f k f' k'.
Proof. intros H Hr. right. split; [|exact Hr]. unfold rem. pose proof (nr_idx _ _ _ H). pose proof (nr_size _ _ _ H). lia. Qed.
Lemma progress_more m f g k f' k' : nr m f g -> progress g k f' k' -> progress f k f' k'.
Proof.
  intros H. unfold progress, rem. pose proof (nr_idx _ _ _ H). pose proof (nr_size _ _ _ H). lia.
Qed.

Lemma tok_ok_nr_shift m f g t : nr m f g -> tok_ok g t -> tok_ok f t.
Proof.
  intros Ha [H1 H2 H3 H4]. split; [exact H1| | |].
  - rewrite H2. eapply nr_ws; eauto.
  - destruct H3 as [[H3 H3']|(k & H3 & H3')].
    + left. rewrite H3, H3', (nr_tline _ _ _ Ha), (nr_tcol _ _ _ Ha). auto.
    + right. pose proof Ha as []. destruct nr_cur0 as (j & _ & Hj). exists (j + k)%nat.
      rewrite <- advance_n_plus.
      rewrite (cur_congr (advance_n j f) g); [auto| | |auto].
      * rewrite advance_n_input. auto.
      * rewrite advance_n_size. auto.
  - intros Hw Hb. apply H4; [eapply nr_wf; eauto|eapply nr_bytes; eauto].
Qed.

Lemma kstep_ok_shift f k m g p : nr m f g -> kstep_ok g k p -> kstep_ok f k p.
Proof.
  intros Hg. destruct p as [[[t f'] k'] n']. cbn [kstep_ok]. intros (H1 & H2 & H3 & H4).
  split; [eapply tok_ok_nr_shift; eauto|]. split; [eapply nr_trans; [exact Hg|exact H2|lia]|].
  split; [exact H3|]. intros Ha Hb. eapply progress_more; eauto.
Qed.

Lemma crash_input f g r : l_input g = l_input f -> crash_ev (l_input g) r -> crash_ev (l_input f) r.
Proof. intros ->. auto. Qed.

Lemma cur_byte_nr m f g : nr m f g -> wf f -> bytes (l_input f) -> current_char g < 256.
Proof. intros H Hw Hb. apply current_char_byte; [eapply nr_wf; eauto|eapply nr_bytes; eauto]. Qed.

Lemma str_start_evaluation_ok f st et al :
  (st = InProgress \/ st = EvaluateBegin) -> forall g, nr 0 f g ->
  (st = InProgress -> (rem g < rem f)%nat) ->
  kstep_ok f (KStr st et al) (tk g T_EvaluateToStringBegin, g, KStr EvaluateEnd et al, Some (eval_lexer g)).
Proof.
  intros Hst g Hg Hr. cbn [kstep_ok]. split; [apply nr_tk; exact Hg|]. split; [exact Hg|].
  split; [cbn [ty tk]; constructor; exact Hst|]. intros _ _.
  destruct Hst as [-> | ->]; [left; auto|]. apply progress_rank; [exact Hg|cbn; lia].
Qed.

Lemma pair_end_valid b e : pair_ty b e -> is_eof e = false /\ is_valid e = true.
Proof. intros [[_ ->]|[[_ ->]|[_ ->]]]; auto. Qed.

Lemma str_loop_post fuel f et al buf :
  wf f -> bytes (l_input f) -> bytes buf -> (l_size f - l_idx f < fuel)%nat ->
  post (crash_ev (l_input f)) (str_loop fuel f et al buf) (kstep_ok f (KStr InProgress et al)).
Proof.
  revert f buf. induction fuel as [|fuel IH]; intros f buf Hw Hb Hbuf Hf; [lia|].
  cbn [str_loop]. cbv zeta.
  destruct (current_char f =? 0) eqn:E0.
  { destruct (l_stop f =? 0); cbn [post kstep_ok].
    - split; [apply nr_tkl; [nr_solve|auto]|]. split; [nr_solve|].
      split; [constructor; auto|]. intros _ _. apply progress_rank; [nr_solve|cbn; lia].
    - split; [apply nr_tkl; [nr_solve|auto]|]. split; [nr_solve|].
      split; [constructor; reflexivity|]. intros _ H. discriminate H. }
  apply current_char_nz in E0.
  assert (Hcur : current_char f < 256) by (apply current_char_byte; auto).
  assert (Hrec : forall g b, nr 1 f g -> bytes b ->
     post (crash_ev (l_input f)) (str_loop fuel g et al b) (kstep_ok f (KStr InProgress et al))).
  { intros g b Hg Hbb. eapply post_weaken; [apply (IH g b) | |].
    - eapply nr_wf; eauto.
    - eapply nr_bytes; eauto.
    - exact Hbb.
    - pose proof (nr_idx _ _ _ Hg). pose proof (nr_size _ _ _ Hg). lia.
    - intros r. apply crash_input. apply (nr_input _ _ _ Hg).
    - intros p. eapply kstep_ok_shift; eauto. }
  destruct (_ && negb (l_stop f =? ch_bs)).
  { apply post_bind. eapply post_weaken; [apply (consume_escaped_byte_post (advance f) buf); auto | auto |].
    intros [[err b] g] (H1 & H2 & H3); cbn [fst snd] in *.
    assert (Hfg : nr 1 f g) by nr_solve.
    assert (Hinv : forall t, is_valid t = false -> plain_ty t = true ->
      kstep_ok f (KStr InProgress et al) (tkcl g t [current_char g], g, KStr InProgress et al, None)).
    { intros t Hv Hp. cbn [kstep_ok]. split; [apply nr_tkcl; [nr_solve|]|].
      - intros. apply bytes_one. eapply cur_byte_nr; eauto.
      - split; [nr_solve|]. split; [constructor; assumption|]. cbn [ty tkcl]. intros _ H. congruence. }
    destruct H3 as [-> | [-> | ->]].
    - apply Hrec; [exact Hfg|]. apply H2; auto.
    - apply Hinv; reflexivity.
    - apply Hinv; reflexivity. }
  destruct (_ && (peek f =? "{"%ch)).
  { assert (Hn : nr 2 f (advance_n 2 f)) by nr_solve.
    assert (Hr : (rem (advance_n 2 f) < rem f)%nat).
    { unfold rem. rewrite advance_n_size, advance_n_idx. lia. }
    destruct buf as [|c buf]; cbn [post].
    - apply str_start_evaluation_ok; [auto|nr_solve|auto].
    - cbn [kstep_ok]. split; [apply nr_tkl; [nr_solve|auto]|]. split; [nr_solve|].
      split; [constructor; auto|]. intros _ _. left. exact Hr. }
  destruct (_ && negb (l_start f =? l_stop f)).
  { apply Hrec; [nr_solve|]. apply bytes_app; [exact Hbuf|apply bytes_one, Hcur]. }
  destruct (current_char f =? l_stop f).
  - destruct (l_depth (advance f)) as [|d].
    + destruct buf as [|c buf]; cbn [post kstep_ok str_finish].
      * split; [apply nr_tkc; nr_solve|]. split; [nr_solve|]. split; [cbn [ty tkc]; constructor; auto|].
        intros _ _. apply progress_rank; [nr_solve|cbn; lia].
      * split; [apply nr_tkl; [nr_solve|auto]|]. split; [nr_solve|].
        split; [constructor; auto|]. intros _ _. apply progress_rank; [nr_solve|cbn; lia].
    + apply Hrec; [nr_solve|]. apply bytes_app; [exact Hbuf|apply bytes_one, Hcur].
  - apply Hrec; [nr_solve|]. apply bytes_app; [exact Hbuf|apply bytes_one, Hcur].
Qed.

Lemma build_str_post f st et al :
  wf f -> bytes (l_input f) ->
  post (crash_ev (l_input f)) (build_str f st et al) (kstep_ok f (KStr st et al)).
Proof.
  intros Hw Hb. destruct st; cbn [build_str].
  - apply str_loop_post; auto using bytes_nil. adv_lia.
  - cbn [post str_start_evaluation]. apply str_start_evaluation_ok; [auto|nr_solve|discriminate].
  - cbn [post kstep_ok]. split; [apply nr_tk; nr_solve|]. split; [nr_solve|]. split; [constructor|].
    intros _ _. apply progress_rank; [nr_solve|cbn; lia].
  - cbn [post kstep_ok str_finish]. split; [apply nr_tkc; nr_solve|]. split; [nr_solve|].
    split; [cbn [ty tkc]; constructor; auto|]. intros _ _. apply progress_rank; [nr_solve|cbn; lia].
  - cbn [post kstep_ok]. split; [apply nr_tkc; nr_solve|]. split; [nr_solve|]. split; [constructor|].
    intros H. discriminate H.
Qed.

(** ** Regexps *)

Lemma consume_options_post C f : post C (consume_options f) (loop_post 0 f []).
Proof. apply options_loop_post. adv_lia. Qed.

Definition kind_bytes (k : kind) : Prop :=
  match k with
  | KRegexp _ o => bytes o
  | KWords _ _ _ _ b => bytes b
  | _ => True
  end.
Definition kstep_ok' (f : lx) (k : kind) (p : kres) : Prop :=
  kstep_ok f k p /\ kind_bytes (snd (fst p)).

Lemma regexp_loop_post fuel f opts buf :
  wf f -> bytes (l_input f) -> bytes buf -> bytes opts -> (l_size f - l_idx f < fuel)%nat ->
  post (crash_ev (l_input f)) (regexp_loop fuel f opts buf) (kstep_ok' f (KRegexp InProgress opts)).
Proof.
  revert f buf. induction fuel as [|fuel IH]; intros f buf Hw Hb Hbuf Ho Hf; [lia|].
  cbn [regexp_loop]. cbv zeta.
  destruct (current_char f =? 0) eqn:E0.
  { cbn [post]. split; [|exact Ho]. cbn [kstep_ok]. split; [apply nr_tkl; [nr_solve|auto]|]. split; [nr_solve|].
    split; [constructor|]. intros _ H. discriminate H. }
  apply current_char_nz in E0.
  assert (Hcur : current_char f < 256) by (apply current_char_byte; auto).
  assert (Hrec : forall g b, nr 1 f g -> bytes b ->
     post (crash_ev (l_input f)) (regexp_loop fuel g opts b) (kstep_ok' f (KRegexp InProgress opts))).
  { intros g b Hg Hbb. eapply post_weaken; [apply (IH g b) | |].
    - eapply nr_wf; eauto.
    - eapply nr_bytes; eauto.
    - exact Hbb.
    - exact Ho.
    - pose proof (nr_idx _ _ _ Hg). pose proof (nr_size _ _ _ Hg). lia.
    - intros r. apply crash_input. apply (nr_input _ _ _ Hg).
    - intros p [Hp1 Hp2]. split; [|exact Hp2]. eapply kstep_ok_shift; eauto. }
  destruct (_ && negb (l_stop f =? ch_bs)).
  { apply Hrec; [nr_solve|].
    assert (current_char (advance f) < 256) by (apply (cur_byte_nr 0 f); auto; nr_solve).
    destruct (_ || _); apply bytes_app; auto; repeat (constructor; auto); try reflexivity. }
  destruct (_ && (peek f =? "{"%ch)).
  { cbn [post]. split; [|exact Ho]. cbn [kstep_ok]. split; [apply nr_tkl; [nr_solve|auto]|]. split; [nr_solve|].
    split; [constructor; auto|]. intros _ _. eapply (progress_nr 2); [lia|exact E0|nr_solve]. }
  destruct (_ && negb (l_start f =? l_stop f)).
  { apply Hrec; [nr_solve|]. apply bytes_app; [exact Hbuf|apply bytes_one, Hcur]. }
  destruct (current_char f =? l_stop f).
  - destruct (l_depth (advance f)) as [|d].
    + apply post_bind. eapply post_weaken; [apply consume_options_post | exact (fun _ H => H) |].
      intros [o g] [H1 H2]; cbn [fst snd] in *. cbn [post]. split.
      * cbn [kstep_ok]. split; [apply nr_tkl; [nr_solve|auto]|]. split; [nr_solve|].
        split; [constructor; auto|]. intros _ _. apply progress_rank; [nr_solve|cbn; lia].
      * cbn. apply H2; auto using bytes_nil.
    + apply Hrec; [nr_solve|]. apply bytes_app; [exact Hbuf|apply bytes_one, Hcur].
  - apply Hrec; [nr_solve|]. apply bytes_app; [exact Hbuf|apply bytes_one, Hcur].
Qed.

Lemma build_regexp_post f st opts :
  wf f -> bytes (l_input f) -> bytes opts ->
  post (crash_ev (l_input f)) (build_regexp f st opts) (kstep_ok' f (KRegexp st opts)).
Proof.
  intros Hw Hb Ho. destruct st; cbn [build_regexp].
  - apply regexp_loop_post; auto using bytes_nil. adv_lia.
  - cbn [post]. split; [|exact Ho]. cbn [kstep_ok]. split; [apply nr_tk; nr_solve|]. split; [nr_solve|].
    split; [constructor|]. intros _ _. apply progress_rank; [nr_solve|cbn; lia].
  - cbv zeta. destruct (_ =? l_stop _).
    + apply post_bind. eapply post_weaken; [apply consume_options_post | exact (fun _ H => H) |].
      intros [o g] [H1 H2]; cbn [fst snd] in *. cbn [post]. split.
      * cbn [kstep_ok]. split; [apply nr_tk; nr_solve|]. split; [nr_solve|].
        split; [constructor; auto|]. intros _ _. apply progress_rank; [nr_solve|cbn; lia].
      * cbn. apply H2; auto using bytes_nil.
    + cbn [post]. split; [|exact Ho]. cbn [kstep_ok]. split; [apply nr_tk; nr_solve|]. split; [nr_solve|].
      split; [constructor; auto|]. intros _ _. apply progress_rank; [nr_solve|cbn; lia].
  - cbv zeta. cbn [post]. split; [|exact Ho]. cbn [kstep_ok].
    assert (Ht : tok_ok f (tkc f T_InterpolatedRegexpEnd)) by (apply nr_tkc; nr_solve).
    split; [destruct opts; [exact Ht|apply tok_ok_set_lit; auto]|]. split; [nr_solve|].
    split; [destruct opts; cbn; constructor|]. intros _ _. apply progress_rank; [nr_solve|cbn; lia].
  - cbn [post]. split; [|exact Ho]. cbn [kstep_ok]. split; [apply nr_tkc; nr_solve|]. split; [nr_solve|].
    split; [constructor|]. intros H. discriminate H.
Qed.

(** ** Word arrays *)

Lemma dynamic_string_finish_ok f it s d b g d' buf :
  nr 0 f g -> bytes buf ->
  post (crash_ev (l_input f)) (dynamic_string_finish g it s d' buf)
    (kstep_ok' f (KWords W_DynamicStringInProgress it s d b)).
Proof.
  intros Hg Hbuf. unfold dynamic_string_finish. destruct buf as [|c buf]; cbn [post].
  - split; [|constructor]. cbn [kstep_ok]. split; [apply nr_tk; exact Hg|]. split; [exact Hg|].
    split; [constructor|]. intros _ _. apply progress_rank; [exact Hg|cbn; lia].
  - split; [|exact Hbuf]. cbn [kstep_ok]. split; [apply nr_tkcl; auto|]. split; [exact Hg|].
    split; [constructor|]. intros _ _. apply progress_rank; [exact Hg|cbn; lia].
Qed.

Lemma array_loop_post fuel f st it s d0 b0 d buf :
  (st = W_InProgress \/ st = W_DynamicStringInProgress) ->
  wf f -> bytes (l_input f) -> bytes buf -> (l_size f - l_idx f < fuel)%nat ->
  post (crash_ev (l_input f)) (array_loop fuel f st it s d buf) (kstep_ok' f (KWords st it s d0 b0)).
Proof.
  intros Hst. revert f d buf. induction fuel as [|fuel IH]; intros f d buf Hw Hb Hbuf Hf; [lia|].
  cbn [array_loop]. cbv zeta.
  destruct (current_char f =? 0) eqn:E0.
  { cbn [post]. split; [|exact Hbuf]. cbn [kstep_ok]. split; [apply nr_tkl; [nr_solve|auto]|]. split; [nr_solve|].
    split; [constructor; exact Hst|]. intros _ H. discriminate H. }
  apply current_char_nz in E0.
  assert (Hcur : current_char f < 256) by (apply current_char_byte; auto).
  assert (Hrec : forall g b d, nr 1 f g -> bytes b ->
     post (crash_ev (l_input f)) (array_loop fuel g st it s d b) (kstep_ok' f (KWords st it s d0 b0))).
  { intros g b d' Hg Hbb. eapply post_weaken; [apply (IH g d' b) | |].
    - eapply nr_wf; eauto.
    - eapply nr_bytes; eauto.
    - exact Hbb.
    - pose proof (nr_idx _ _ _ Hg). pose proof (nr_size _ _ _ Hg). lia.
    - intros r. apply crash_input. apply (nr_input _ _ _ Hg).
    - intros p [Hp1 Hp2]. split; [|exact Hp2]. eapply kstep_ok_shift; eauto. }
  assert (Hsnoc : bytes (buf ++ [current_char f])) by (apply bytes_app; [exact Hbuf|apply bytes_one, Hcur]).
  destruct (_ && negb (l_stop f =? ch_bs)).
  { apply Hrec; [nr_solve|].
    assert (current_char (advance f) < 256) by (apply (cur_byte_nr 0 f); auto; nr_solve).
    repeat match goal with |- bytes (if ?b then _ else _) => destruct b end;
      (apply bytes_app; [exact Hbuf|]); repeat (constructor; auto); try reflexivity. }
  destruct (isspace (current_char f)).
  { destruct (w_in_dynamic st) eqn:Ed.
    - destruct Hst as [-> | ->]; [discriminate|]. apply dynamic_string_finish_ok; [nr_solve|exact Hbuf].
    - destruct Hst as [-> | ->]; [|discriminate]. destruct buf as [|c buf].
      + apply Hrec; [nr_solve|constructor].
      + cbn [post]. split; [|exact Hbuf]. cbn [kstep_ok]. split; [apply nr_tkcl; [nr_solve|auto]|]. split; [nr_solve|].
        split; [constructor; auto|]. intros _ _. eapply (progress_nr 1); [lia|exact E0|nr_solve]. }
  destruct (it && (current_char f =? "#"%ch) && (peek f =? "{"%ch)) eqn:Ei.
  { destruct it; [|discriminate]. cbn [post]. split; [|exact Hbuf]. cbn [kstep_ok].
    split; [apply nr_tkc; nr_solve|]. split; [nr_solve|].
    split; [constructor; exact Hst|]. intros _ _. eapply (progress_nr 2); [lia|exact E0|nr_solve]. }
  destruct (_ && negb (s =? l_stop f)).
  { apply Hrec; [nr_solve|exact Hsnoc]. }
  destruct (current_char f =? l_stop f).
  - destruct d as [|d].
    + destruct (w_in_dynamic st) eqn:Ed.
      * destruct Hst as [-> | ->]; [discriminate|]. apply dynamic_string_finish_ok; [nr_solve|exact Hbuf].
      * destruct Hst as [-> | ->]; [|discriminate]. destruct buf as [|c buf]; cbn [post]; (split; [|try exact Hbuf; constructor]).
        -- cbn [kstep_ok]. split; [apply nr_tkc; nr_solve|]. split; [nr_solve|]. split; [constructor; auto|].
           intros _ _. apply progress_rank; [nr_solve|cbn; lia].
        -- cbn [kstep_ok]. split; [apply nr_tkcl; [nr_solve|auto]|]. split; [nr_solve|]. split; [constructor; auto|].
           intros _ _. apply progress_rank; [nr_solve|cbn; lia].
    + apply Hrec; [nr_solve|exact Hsnoc].
  - apply Hrec; [nr_solve|exact Hsnoc].
Qed.

Lemma build_words_post f st it s d b :
  wf f -> bytes (l_input f) -> bytes b ->
  post (crash_ev (l_input f)) (build_words f st it s d b) (kstep_ok' f (KWords st it s d b)).
Proof.
  intros Hw Hb Hbb. destruct st; cbn [build_words].
  - apply array_loop_post; auto using bytes_nil. adv_lia.
  - cbn [post]. split; [|exact Hbb]. cbn [kstep_ok]. split; [apply nr_tkl; [nr_solve|auto]|]. split; [nr_solve|].
    split; [constructor|]. intros _ _. apply progress_rank; [nr_solve|cbn; lia].
  - apply array_loop_post; auto using bytes_nil. adv_lia.
  - destruct (_ =? l_stop f); cbv zeta; cbn [post]; (split; [|exact Hbb]); cbn [kstep_ok];
      (split; [apply nr_tk; nr_solve|]); (split; [nr_solve|]); (split; [constructor; auto|]);
      intros _ _; apply progress_rank; try nr_solve; cbn; lia.
  - cbn [post]. split; [|exact Hbb]. cbn [kstep_ok]. split; [apply nr_tk; nr_solve|]. split; [nr_solve|].
    split; [constructor|]. intros _ _. apply progress_rank; [nr_solve|cbn; lia].
  - cbv zeta. cbn [post]. split; [|exact Hbb]. cbn [kstep_ok]. split; [apply nr_tk; nr_solve|]. split; [nr_solve|].
    split; [constructor|]. intros _ _. apply progress_rank; [nr_solve|cbn; lia].
  - cbn [post]. split; [|exact Hbb]. cbn [kstep_ok]. split; [apply nr_tkc; nr_solve|]. split; [nr_solve|].
    split; [constructor; auto|]. intros _ _. apply progress_rank; [nr_solve|cbn; lia].
  - cbn [post]. split; [|exact Hbb]. cbn [kstep_ok]. split; [apply nr_tkc; nr_solve|]. split; [nr_solve|].
    split; [constructor|]. intros H. discriminate H.
Qed.

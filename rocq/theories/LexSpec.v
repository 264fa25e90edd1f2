(** * LexSpec: what every consuming function of the lexer guarantees *)
From Coq Require Import Strings.String NArith ZArith Bool Arith List Lia ZifyBool ZifyNat ZifyN.
From Verif Require Import Base Token Spec LexModel LexBasics LexRest LexLoops.
Import ListNotations.
Open Scope N_scope.

(** ** Tokens *)

Definition opt_bytes (o : option str) : Prop := match o with Some s => bytes s | None => True end.

Record tok_ok (f : lx) (t : token) : Prop := TokOk {
  tok_doc : doc t = None;
  tok_ws : tk_ws t = l_ws f;
  tok_pos : (tk_line t = l_tline f /\ tk_col t = l_tcol f) \/
            exists k, tk_line t = c_line (l_cur (advance_n k f)) /\ tk_col t = c_col (l_cur (advance_n k f));
  tok_bytes : wf f -> bytes (l_input f) -> opt_bytes (lit t) /\ bytes (dbl t);
}.

(** Types that neither open nor close a literal and are not Eof. *)
Definition plain_ty (t : ttype) : bool :=
  match t with
  | T_InterpolatedStringBegin | T_InterpolatedShellBegin | T_InterpolatedSymbolBegin
  | T_InterpolatedRegexpBegin | T_PercentLowerW | T_PercentUpperW | T_PercentLowerI | T_PercentUpperI
  | T_EvaluateToStringBegin
  | T_InterpolatedStringEnd | T_InterpolatedShellEnd | T_InterpolatedSymbolEnd
  | T_InterpolatedRegexpEnd | T_EvaluateToStringEnd | T_Eof => false
  | _ => true
  end.

Definition need (t : ttype) : nat := if is_valid t then 1 else 0.

Definition cons_ok (f : lx) (p : token * lx) : Prop :=
  tok_ok f (fst p) /\ adv (need (ty (fst p))) f (snd p) /\ plain_ty (ty (fst p)) = true.

(** ** Tactics *)

Lemma adv_adv_r m f g : adv (m - 1) f g -> adv m f (advance g).
Proof. intros. eapply adv_trans; [eassumption|apply adv_advance|lia]. Qed.
Lemma adv_advn_r m k f g : adv (m - k) f g -> adv m f (advance_n k g).
Proof. intros. eapply adv_trans; [eassumption|apply adv_advance_n|lia]. Qed.
Lemma adv_if_r (b : bool) m f g : adv m f g -> adv m f (if b then advance g else g).
Proof. intros. eapply adv_trans; [eassumption|apply adv_if_advance|lia]. Qed.
Lemma adv_trans_r m b f g h : adv b g h -> adv (m - b) f g -> adv m f h.
Proof. intros. eapply adv_trans; [eassumption|eassumption|lia]. Qed.
Lemma adv_refl0 f m : (m <= 0)%nat -> adv m f f.
Proof. intros. eapply adv_le; [apply adv_refl|lia]. Qed.

Ltac adv_solve :=
  lazymatch goal with
  | |- adv _ ?f ?f => apply adv_refl0; first [lia | cbn; lia]
  | |- adv _ _ (advance _) => apply adv_adv_r; adv_solve
  | |- adv _ _ (advance_n _ _) => apply adv_advn_r; adv_solve
  | |- adv _ _ (if _ then advance _ else _) => apply adv_if_r; adv_solve
  | H : adv _ ?g ?h |- adv _ _ ?h => apply (adv_trans_r _ _ _ _ _ H); adv_solve
  end.

Lemma adv_ws m f g : adv m f g -> l_ws g = l_ws f.
Proof. intros H. apply adv_frame in H. rewrite H. reflexivity. Qed.
Lemma adv_tline m f g : adv m f g -> l_tline g = l_tline f.
Proof. intros H. apply adv_frame in H. rewrite H. reflexivity. Qed.
Lemma adv_tcol m f g : adv m f g -> l_tcol g = l_tcol f.
Proof. intros H. apply adv_frame in H. rewrite H. reflexivity. Qed.
Lemma adv_last m f g : adv m f g -> l_last g = l_last f.
Proof. intros H. apply adv_frame in H. rewrite H. reflexivity. Qed.
Lemma adv_heredocs m f g : adv m f g -> l_heredocs g = l_heredocs f.
Proof. intros H. apply adv_frame in H. rewrite H. reflexivity. Qed.
Lemma adv_names m f g : adv m f g -> l_names g = l_names f.
Proof. intros H. apply adv_frame in H. rewrite H. reflexivity. Qed.
Lemma adv_ternary m f g : adv m f g -> l_ternary g = l_ternary f.
Proof. intros H. apply adv_frame in H. rewrite H. reflexivity. Qed.

Section Toks.
Context (f g : lx) (H : adv 0 f g).

Lemma tok_ok_tk t : tok_ok f (tk g t).
Proof.
  split; simpl; auto using bytes_nil.
  - eapply adv_ws; eauto.
  - left. split; [eapply adv_tline|eapply adv_tcol]; eauto.
Qed.
Lemma tok_ok_tkz t z : tok_ok f (tkz g t z).
Proof.
  split; simpl; auto using bytes_nil.
  - eapply adv_ws; eauto.
  - left. split; [eapply adv_tline|eapply adv_tcol]; eauto.
Qed.
Lemma tok_ok_tkl t s : (wf f -> bytes (l_input f) -> bytes s) -> tok_ok f (tkl g t s).
Proof.
  intros Hs. split; simpl; auto using bytes_nil.
  - eapply adv_ws; eauto.
  - left. split; [eapply adv_tline|eapply adv_tcol]; eauto.
Qed.
Lemma tok_ok_tkd t s : (wf f -> bytes (l_input f) -> bytes s) -> tok_ok f (tkd g t s).
Proof.
  intros Hs. split; simpl; auto using bytes_nil.
  - eapply adv_ws; eauto.
  - left. split; [eapply adv_tline|eapply adv_tcol]; eauto.
Qed.
Lemma tok_ok_tkc t : tok_ok f (tkc g t).
Proof.
  split; simpl; auto using bytes_nil.
  - eapply adv_ws; eauto.
  - right. destruct H as (k & _ & ->). exists k; auto.
Qed.
Lemma tok_ok_tkcl t s : (wf f -> bytes (l_input f) -> bytes s) -> tok_ok f (tkcl g t s).
Proof.
  intros Hs. split; simpl; auto using bytes_nil.
  - eapply adv_ws; eauto.
  - right. destruct H as (k & _ & ->). exists k; auto.
Qed.
End Toks.

Lemma tok_ok_set_ty f t x : tok_ok f t -> tok_ok f (set_ty t x).
Proof. intros []; split; auto. Qed.
Lemma tok_ok_set_lit f t s : tok_ok f t -> (wf f -> bytes (l_input f) -> bytes s) -> tok_ok f (set_lit t s).
Proof. intros [] Hs; split; simpl; auto. intros H1 H2; split; [auto|]. apply tok_bytes0; auto. Qed.

Lemma adv_cur_byte m f g : adv m f g -> wf f -> bytes (l_input f) -> current_char g < 256.
Proof.
  intros H Hw Hb. apply current_char_byte; [eapply wf_adv; eauto|].
  rewrite (adv_input _ _ _ H). exact Hb.
Qed.
Lemma adv_keeps m f g b b' : adv m f g -> keeps g b b' -> wf f -> bytes (l_input f) -> bytes b -> bytes b'.
Proof.
  intros H Hk Hw Hb. apply Hk; [eapply wf_adv; eauto|].
  rewrite (adv_input _ _ _ H). exact Hb.
Qed.

(** Solve [bytes s] given [wf f] and [bytes (l_input f)]. *)
Ltac bytes_solve :=
  match goal with
  | |- bytes [] => apply bytes_nil
  | |- bytes (_ ++ _) => apply bytes_app; bytes_solve
  | |- bytes (_ :: _) => apply bytes_cons; bytes_solve
  | |- bytes (s2l _) => apply bytes_s2l
  | |- bytes (cstr _) => apply bytes_cstr; bytes_solve
  | |- bytes (if _ then _ else _) => match goal with |- bytes (if ?b then _ else _) => destruct b end; bytes_solve
  | Hw : wf ?f, Hb : bytes (l_input ?f) |- current_char ?g < 256 =>
    apply (fun H => adv_cur_byte 0 f g H Hw Hb); adv_solve
  | Hw : wf ?f, Hb : bytes (l_input ?f), Hk : keeps ?g ?b ?b' |- bytes ?b' =>
    apply (fun H => adv_keeps 0 f g b b' H Hk Hw Hb); [adv_solve | bytes_solve]
  | |- to_char _ < 256 => apply to_char_byte
  | |- ?x < 256 => first [assumption | reflexivity | lia]
  | H : wf ?f -> bytes (l_input ?f) -> bytes ?s |- bytes ?s => apply H; assumption
  | |- bytes _ => assumption
  end.

Ltac tok_solve :=
  match goal with
  | |- tok_ok _ (tk _ _) => apply tok_ok_tk; adv_solve
  | |- tok_ok _ (tkz _ _ _) => apply tok_ok_tkz; adv_solve
  | |- tok_ok _ (tkl _ _ _) => apply tok_ok_tkl; [adv_solve | intros; bytes_solve]
  | |- tok_ok _ (tkd _ _ _) => apply tok_ok_tkd; [adv_solve | intros; bytes_solve]
  | |- tok_ok _ (tkc _ _) => apply tok_ok_tkc; adv_solve
  | |- tok_ok _ (tkcl _ _ _) => apply tok_ok_tkcl; [adv_solve | intros; bytes_solve]
  end.

Ltac cons_leaf :=
  cbn [post]; unfold cons_ok; cbn [fst snd];
  split; [cbn [fst snd]; tok_solve | split; [cbn [fst snd ty tk tkl tkz tkd tkc tkcl];
     try (change (need _) with 1%nat); try (change (need _) with 0%nat); adv_solve | reflexivity]].

(** Split every conditional of the goal. *)
Ltac split_ifs :=
  repeat match goal with
  | |- post _ (if ?b then _ else _) _ => destruct b eqn:?
  end.

(** Use the specification [L] of the first step of a [bind]. *)
Ltac step_with L :=
  apply post_bind; eapply post_weaken; [eapply L | exact (fun _ H => H) | ];
  [.. | let p := fresh "p" in let Hp := fresh "Hp" in
        intros p Hp; unfold loop_post in Hp; try (destruct p as [? ?]); cbn [fst snd] in Hp; try (destruct Hp as [? ?]); cbn [fst snd] in * ].

(** ** Consumers *)

Section Crash.
Context (C : reason -> Prop).

Lemma word_loop_post' f buf : post C (word_loop (loop_fuel f) f buf) (loop_post 1 f buf).
Proof. apply word_loop_post. adv_lia. Qed.

Lemma consume_word_token_post f t :
  is_valid t = true -> plain_ty t = true -> post C (consume_word_token f t) (cons_ok f).
Proof.
  intros Hv Hp. unfold consume_word_token. step_with consume_word_post.
  cbn [post]. unfold cons_ok; cbn [fst snd].
  split; [tok_solve|]. split; [|exact Hp]. cbn. unfold need. rewrite Hv. adv_solve.
Qed.

Lemma gobble_adv p : snd (gobble p) = advance (snd p).
Proof. destruct p; reflexivity. Qed.
Lemma gobble_buf p : fst (gobble p) = fst p ++ [current_char (snd p)].
Proof. destruct p; reflexivity. Qed.

Lemma consume_symbol_post f : post C (consume_symbol f) (cons_ok f).
Proof.
  unfold consume_symbol. cbv zeta. cbn [gobble fst snd app].
  split_ifs; cbn [gobble fst snd app];
  repeat match goal with
  | H : context [if ?b then _ else _] |- _ => destruct b eqn:?; cbn [fst snd] in *
  | |- post _ (Ok _) _ => cons_leaf
  | |- post _ (bind (word_loop _ _ _) _) _ => step_with word_loop_post'
  | |- context [if ?b then _ else _] => destruct b eqn:?; cbn [gobble fst snd app]
  end.
Qed.

Lemma consume_bare_name_or_constant_post f t :
  is_valid t = true -> plain_ty t = true ->
  post C (consume_bare_name_or_constant f t) (cons_ok f).
Proof.
  intros Hv Hp. unfold consume_bare_name_or_constant. cbv zeta. step_with consume_word_post.
  split_ifs; cbn [post]; unfold cons_ok; cbn [fst snd].
  all: repeat match goal with |- context [if ?b then _ else _] => destruct b end.
  all: split; [tok_solve|]; split; [|solve [exact Hp | reflexivity]]; cbn [ty tkl]; unfold need; rewrite ?Hv; try change (is_valid T_SymbolKey) with true; cbv iota;
    adv_solve.
Qed.

Lemma consume_global_variable_post f : post C (consume_global_variable f) (cons_ok f).
Proof.
  unfold consume_global_variable. cbv zeta. split_ifs; try cons_leaf.
  apply consume_word_token_post; reflexivity.
Qed.

Lemma digit_loop_post' p f buf : p 0 = false ->
  post C (digit_loop (loop_fuel f) p f buf) (loop_post 1 f buf).
Proof. intros. apply digit_loop_post; [assumption|]. adv_lia. Qed.

(** Follows at least one digit already consumed. *)
Lemma consume_numeric_as_float_post f g chars :
  adv 1 f g -> (wf f -> bytes (l_input f) -> bytes chars) ->
  post C (consume_numeric_as_float g chars) (cons_ok f).
Proof.
  intros Ha Hc. unfold consume_numeric_as_float. apply post_bind.
  apply post_weaken with (C := C) (Q := fun p => adv 0 g (snd p) /\ (wf f -> bytes (l_input f) -> bytes (fst p)));
    [ | auto | ].
  - split_ifs.
    + eapply post_weaken; [apply digit_loop_post'; reflexivity | auto |].
      intros [s h] [H1 H2]; cbn [fst snd] in *. split; [adv_solve|].
      intros Hw Hb. specialize (Hc Hw Hb). bytes_solve.
    + split; cbn [fst snd]; [adv_solve | assumption].
  - intros [s h] [H1 H2]; cbn [fst snd] in *. cbv zeta. split_ifs.
    + cons_leaf.
    + assert (H3 : forall b : bool, adv 0 h (if b then advance (advance h) else advance h))
        by (intros []; adv_solve).
      step_with digit_loop_post'; [reflexivity|].
      assert (H4 : adv 1 f l) by (eapply adv_trans; [ | eassumption | ]; [eapply adv_trans; [ | apply H3 | ]|];
         [eapply adv_trans; [exact Ha | exact H1 | apply le_n] | apply le_n | lia]).
      cons_leaf.
    + cons_leaf.
Qed.

Lemma tok_ok_number f g chars base off :
  adv 0 f g -> (wf f -> bytes (l_input f) -> bytes chars) ->
  tok_ok f (chars_to_fixnum_or_bignum_token g chars base off).
Proof.
  intros Ha Hc. unfold chars_to_fixnum_or_bignum_token. destruct (strtoll _ _) as [v e].
  destruct (_ || _); tok_solve.
Qed.
Lemma number_ty g chars base off :
  ty (chars_to_fixnum_or_bignum_token g chars base off) = T_Bignum \/
  ty (chars_to_fixnum_or_bignum_token g chars base off) = T_Fixnum.
Proof.
  unfold chars_to_fixnum_or_bignum_token. destruct (strtoll _ _) as [v e].
  destruct (_ || _); simpl; auto.
Qed.
Lemma number_ok f g chars base off :
  adv 1 f g -> (wf f -> bytes (l_input f) -> bytes chars) ->
  cons_ok f (chars_to_fixnum_or_bignum_token g chars base off, g).
Proof.
  intros Ha Hc. unfold cons_ok; cbn [fst snd]. split; [apply tok_ok_number; [adv_solve|assumption]|].
  destruct (number_ty g chars base off) as [-> | ->]; auto.
Qed.

Lemma consume_decimal_post f : post C (consume_decimal f) (cons_ok f).
Proof.
  unfold consume_decimal. step_with digit_loop_post'; [reflexivity|]. cbv zeta. split_ifs.
  - apply consume_numeric_as_float_post; [assumption|]. intros; bytes_solve.
  - cbn [post]. apply number_ok; [assumption|]. intros; bytes_solve.
Qed.

Lemma consume_prefixed_post f prefix p base :
  p 0 = false -> bytes prefix -> post C (consume_prefixed f prefix p base) (cons_ok f).
Proof.
  intros Hp Hb. unfold consume_prefixed. cbv zeta. split_ifs; [cons_leaf|].
  step_with digit_loop_post'; [assumption|]. cbn [post]. apply number_ok; [adv_solve|].
  intros; bytes_solve.
Qed.

Lemma consume_numeric_post f : post C (consume_numeric f) (cons_ok f).
Proof.
  unfold consume_numeric. cbv zeta. split_ifs.
  all: try (apply consume_prefixed_post; [reflexivity | repeat constructor]).
  all: try apply consume_decimal_post.
  - apply post_weaken with (C := C) (Q := cons_ok f); auto.
    cbn [post]. unfold cons_ok; cbn [fst snd]. split.
    + apply tok_ok_tkcl; [adv_solve|]. intros. apply bytes_one, peek_byte; assumption.
    + split; [|reflexivity]. apply adv_refl0. cbn. lia.
  - step_with digit_loop_post'; [reflexivity|]. cbn [post]. apply number_ok; [adv_solve|].
    intros Hw Hb. match goal with Hk : keeps _ _ _ |- _ =>
      apply (fun H => adv_keeps 0 f _ _ _ H Hk Hw Hb); [adv_solve|] end.
    apply bytes_one, peek_byte; assumption.
Qed.

Lemma sq_loop_post fuel f start stop depth buf :
  start < 256 ->
  (l_size f - l_idx f < fuel)%nat ->
  post C (sq_loop fuel f start stop depth buf)
    (fun p => adv (need (ty (fst p))) f (snd p) /\
       (ty (fst p) = T_String \/ ty (fst p) = T_SymbolKey \/ ty (fst p) = T_UnterminatedString) /\
       exists s, fst p = tkl (snd p) (ty (fst p)) s /\ (bytes buf -> wf f -> bytes (l_input f) -> bytes s)).
Proof.
  intros Hs. revert f depth buf. induction fuel as [|fuel IH]; intros f depth buf Hf; [lia|].
  cbn [sq_loop]. cbv zeta.
  destruct (current_char f =? 0) eqn:E0.
  { cbn [post fst snd ty tkl]. split; [adv_solve|]. split; [auto|].
    exists [start]. split; [reflexivity|]. intros. bytes_solve. }
  apply current_char_nz in E0.
  assert (Hrec : forall g d b, adv 1 f g -> (wf f -> bytes (l_input f) -> bytes buf -> bytes b) ->
    post C (sq_loop fuel g start stop d b)
    (fun p => adv (need (ty (fst p))) f (snd p) /\
       (ty (fst p) = T_String \/ ty (fst p) = T_SymbolKey \/ ty (fst p) = T_UnterminatedString) /\
       exists s, fst p = tkl (snd p) (ty (fst p)) s /\ (bytes buf -> wf f -> bytes (l_input f) -> bytes s))).
  { intros g d b Hg Hb. eapply post_weaken; [apply IH; adv_lia | auto |].
    intros [t h]. cbn [fst snd]. intros (H1 & H2 & s & H3 & H4). split; [adv_solve|]. split; [exact H2|].
    exists s. split; [exact H3|]. intros Hbb Hw Hi. apply H4; auto.
    - eapply wf_adv; eauto.
    - rewrite (adv_input _ _ _ Hg). exact Hi. }
  destruct (_ && negb (stop =? ch_bs)).
  { apply Hrec; [adv_solve|]. intros. bytes_solve. }
  destruct (_ && negb (start =? stop)).
  { apply Hrec; [adv_solve|]. intros. bytes_solve. }
  destruct (current_char f =? stop).
  - destruct depth as [|depth].
    + split_ifs; cbn [post fst snd ty tkl]; (split; [change (need _) with 1%nat; adv_solve|]);
        (split; [auto|]); eexists; (split; [reflexivity|]); auto.
    + apply Hrec; [adv_solve|]. intros. bytes_solve.
  - apply Hrec; [adv_solve|]. intros. bytes_solve.
Qed.

Lemma consume_single_quoted_string_post' f start stop :
  start < 256 ->
  post C (consume_single_quoted_string f start stop)
    (fun p => tok_ok f (fst p) /\ adv (need (ty (fst p))) f (snd p) /\
       (ty (fst p) = T_String \/ ty (fst p) = T_SymbolKey \/ ty (fst p) = T_UnterminatedString)).
Proof.
  intros Hs. eapply post_weaken; [apply sq_loop_post; [exact Hs | adv_lia] | auto |].
  intros [t g]; cbn [fst snd]. intros (H1 & H2 & s & H3 & H4). split; [|auto].
  rewrite H3. apply tok_ok_tkl; [adv_solve|]. intros. apply H4; auto. constructor.
Qed.
Lemma consume_single_quoted_string_post f start stop :
  start < 256 -> post C (consume_single_quoted_string f start stop) (cons_ok f).
Proof.
  intros Hs. eapply post_weaken; [apply consume_single_quoted_string_post'; exact Hs | auto |].
  intros [t g]; unfold cons_ok; cbn [fst snd]. intros (H1 & H2 & H3). split; [auto|]. split; [auto|].
  destruct H3 as [-> | [-> | ->]]; reflexivity.
Qed.

End Crash.

(** ** Numbered references *)

Lemma nth_ref_loop_post fuel f pre :
  wf f -> isdigit (current_char f) = true -> Forall (fun c => isdigit c = true) pre ->
  (exists l, l_input f = l ++ "$"%ch :: pre ++ rest f) ->
  (l_size f - l_idx f < fuel)%nat ->
  post (crash_ev (l_input f)) (nth_ref_loop fuel f (Z.of_N (numval 10 pre))) (fun p => adv 1 f (snd p)).
Proof.
  revert f pre. induction fuel as [|fuel IH]; intros f pre Hw Hd Hp (l & Hl) Hf; [lia|].
  cbn [nth_ref_loop]. cbv zeta.
  assert (Hi : (l_idx f < l_size f)%nat) by (eapply current_char_pred_nz; [exact Hd|reflexivity]).
  assert (Hv : (Z.of_N (numval 10 pre) * 10 + (schar (current_char f) - 48))%Z
               = Z.of_N (numval 10 (pre ++ [current_char f]))).
  { unfold numval. assert (Hn : forall s acc c, numval_from 10 acc (s ++ [c]) = numval_from 10 acc s * 10 + dval c).
    { induction s; intros; simpl; auto. }
    rewrite Hn. apply isdigit_iff in Hd. unfold schar, dval.
    repeat match goal with |- context [if ?b then _ else _] => destruct b eqn:? end; lia. }
  rewrite Hv. rewrite (rest_cons f Hw Hi) in Hl.
  assert (Hp' : Forall (fun c => isdigit c = true) (pre ++ [current_char f]))
    by (apply Forall_app; split; [assumption|]; constructor; auto).
  destruct (llong_max <? _)%Z eqn:E.
  - cbn [post crash_ev]. exists (pre ++ [current_char f]). split; [|split; [assumption|]].
    + exists l, (rest (advance f)). rewrite Hl. simpl. rewrite <- app_assoc. reflexivity.
    + apply Z.ltb_lt in E. unfold llong_max in E. lia.
  - destruct (isdigit (current_char (advance f))) eqn:Ed; [|cbn; adv_solve].
    eapply post_weaken; [apply IH | auto |]; auto.
    + exists l. rewrite advance_input, Hl, <- app_assoc. reflexivity.
    + adv_lia.
    + intros [z g] H; cbn [fst snd] in *. adv_solve.
Qed.

Lemma consume_nth_ref_post f :
  wf f -> current_char f = "$"%ch -> between "1"%ch "9"%ch (peek f) = true ->
  post (crash_ev (l_input f)) (consume_nth_ref f) (cons_ok f).
Proof.
  intros Hw Hc Hd. unfold consume_nth_ref. apply post_bind.
  assert (Hi : (l_idx f < l_size f)%nat) by (eapply current_char_eq_nz; [apply N.eqb_eq; exact Hc|discriminate]).
  assert (Hp : isdigit (current_char (advance f)) = true).
  { rewrite current_char_rest, rest_advance, <- peek_rest by auto.
    apply between_iff in Hd. apply isdigit_iff. lia. }
  eapply post_weaken.
  - apply (nth_ref_loop_post _ (advance f) []); auto.
    + exists (firstn (l_idx f) (l_input f)). cbn [app]. rewrite <- Hc, <- (rest_cons f Hw Hi).
      unfold rest. symmetry. apply firstn_skipn.
    + adv_lia.
  - auto.
  - intros [z g] H; cbn [fst snd] in *. cbn [post]. cons_leaf.
Qed.

(** ** Escapes *)

Lemma utf32_small (C : reason -> Prop) cp : (cp < 0x200000)%Z -> post C (utf32_codepoint_to_utf8 cp) bytes.
Proof.
  intros H. unfold utf32_codepoint_to_utf8. split_ifs; cbn [post]; try (repeat constructor; apply to_char_byte).
  lia.
Qed.

Lemma hex_digit_le c : c < 256 ->
  ((if between "a"%ch "f"%ch c then schar c - 97 + 10
    else if between "A"%ch "F"%ch c then schar c - 65 + 10
    else schar c - 48) <= 79)%Z.
Proof.
  intros H. unfold schar, between.
  repeat match goal with |- context [if ?b then _ else _] => destruct b eqn:? end; lia.
Qed.
Lemma hex4_small f : (forall k, current_char (advance_n k f) < 256) -> (fst (consume_hex_number 4 f) < 0x200000)%Z.
Proof.
  intros H. unfold consume_hex_number. cbn [hex_loop]. cbv zeta.
  pose proof (hex_digit_le _ (H 0%nat)) as H0. pose proof (hex_digit_le _ (H 1%nat)) as H1.
  pose proof (hex_digit_le _ (H 2%nat)) as H2. pose proof (hex_digit_le _ (H 3%nat)) as H3.
  cbn [advance_n] in *.
  repeat match goal with
  | |- context [if isxdigit ?c then _ else _] => destruct (isxdigit c)
  end; cbn [fst];
  revert H0 H1 H2 H3;
  repeat match goal with
  | |- context [(?x <= 79)%Z] => lazymatch x with context [if _ then _ else _] => generalize x; intro end
  end; lia.
Qed.

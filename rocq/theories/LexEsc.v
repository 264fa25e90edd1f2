(** * LexEsc: escapes and heredocs *)
From Coq Require Import Strings.String NArith ZArith Bool Arith List Lia ZifyBool ZifyNat ZifyN.
From Verif Require Import Base Token Spec LexModel LexBasics LexRest LexLoops LexSpec.
Import ListNotations.
Open Scope N_scope.

Lemma skip_blanks_spec C fuel f :
  wf f -> (l_size f - l_idx f < fuel)%nat ->
  post C (skip_blanks fuel f)
    (fun g => adv 0 f g /\ exists bl, Forall (fun c => c = 32) bl /\ rest f = bl ++ rest g).
Proof.
  revert f. induction fuel as [|fuel IH]; intros f Hw Hf; [lia|].
  cbn [skip_blanks]. destruct (current_char f =? " "%ch) eqn:E.
  - assert (Hi : (l_idx f < l_size f)%nat) by (eapply current_char_eq_nz; [exact E|discriminate]).
    eapply post_weaken; [apply IH; [auto|adv_lia] | auto |].
    intros g (Hg & bl & Hbl & Hr). split; [adv_solve|].
    exists (32 :: bl). split; [constructor; auto|].
    rewrite (rest_cons f Hw Hi), Hr. apply N.eqb_eq in E. rewrite E. reflexivity.
  - cbn [post]. split; [adv_solve|]. exists []. split; [constructor|reflexivity].
Qed.

Lemma braced_unicode_post fuel f buf mid :
  wf f -> (l_size f - l_idx f < fuel)%nat ->
  (exists l, l_input f = l ++ "u"%ch :: "{"%ch :: mid ++ rest f) ->
  Forall (fun c => isxdigit c = true \/ c = 32) mid ->
  post (crash_ev (l_input f)) (braced_unicode fuel f buf)
    (fun p => adv 0 f (snd p) /\ keeps f buf (snd (fst p)) /\
       (fst (fst p) = true -> current_char (snd p) = "}"%ch)).
Proof.
  revert f buf mid. induction fuel as [|fuel IH]; intros f buf mid Hw Hf (l & Hl) Hm; [lia|].
  cbn [braced_unicode]. cbv zeta.
  destruct (current_char f =? "}"%ch) eqn:Ec.
  { cbn [post fst snd]. split; [adv_solve|]. split; [apply keeps_refl|]. intros _. apply N.eqb_eq, Ec. }
  destruct (isxdigit (current_char f)) eqn:Ex; cbn [negb].
  2:{ cbn [post fst snd]. split; [adv_solve|]. split; [apply keeps_refl|]. discriminate. }
  assert (Hi : (l_idx f < l_size f)%nat) by (eapply current_char_pred_nz; [exact Ex|reflexivity]).
  destruct (hex_loop_spec 6 f 0 Hw Ex) as (ds & Hlen & Hall & Hrest & Heq & _).
  unfold consume_hex_number. change 0%Z with (Z.of_N 0). rewrite Heq. fold (numval 16 ds).
  destruct (0x200000 <=? numval 16 ds) eqn:Ev.
  { unfold utf32_codepoint_to_utf8.
    repeat match goal with |- context [(Z.of_N _ <? ?x)%Z] =>
      replace (Z.of_N (numval 16 ds) <? x)%Z with false by (symmetry; apply Z.ltb_ge; lia) end.
    cbn [bind post crash_ev]. exists mid, ds. split; [|split; [exact Hm|split; [lia|split; [exact Hall|lia]]]].
    exists l, (rest (advance_n (length ds) f)). rewrite Hl, Hrest.
    cbn [app]. rewrite <- !app_assoc. reflexivity. }
  apply post_bind. eapply post_weaken; [apply (utf32_small (crash_ev (l_input f))); lia | auto |].
  intros bs Hbs. apply post_bind.
  assert (Hw' : wf (advance_n (length ds) f)) by (apply wf_advance_n; exact Hw).
  eapply post_weaken; [apply skip_blanks_spec; [exact Hw'|adv_lia] | exact (fun _ H => H) |].
  intros g (Hg & bl & Hbl & Hr).
  assert (Hfg : adv 1 f g) by adv_solve.
  rewrite <- (adv_input _ _ _ Hfg).
  eapply post_weaken; [apply (IH g (buf ++ bs) (mid ++ ds ++ bl)) | auto |].
  - eapply wf_adv; eauto.
  - adv_lia.
  - exists l. rewrite (adv_input _ _ _ Hfg), Hl, Hrest, Hr.
    rewrite <- !app_assoc. reflexivity.
  - apply Forall_app; split; [exact Hm|]. apply Forall_app; split.
    + eapply Forall_impl; [|exact Hall]. auto.
    + eapply Forall_impl; [|exact Hbl]. auto.
  - intros [[ok b] h]; cbn [fst snd]. intros (H1 & H2 & H3). split; [adv_solve|]. split; [|exact H3].
    eapply keeps_trans; [exact Hfg| |exact H2]. apply keeps_app. auto.
Qed.

Definition esc_ok (f : lx) (buf : str) (p : esc_result) : Prop :=
  adv 1 f (snd p) /\ keeps f buf (snd (fst p)) /\
  (fst (fst p) = None \/ fst (fst p) = Some T_InvalidUnicodeEscape \/ fst (fst p) = Some T_InvalidCharacterEscape).

Lemma control_character_adv m f : adv 1 f (snd (control_character m f)).
Proof.
  unfold control_character. cbv zeta.
  repeat match goal with |- context [if ?b then _ else _] => destruct b; cbn [snd]; try adv_solve end.
Qed.

Lemma consume_escaped_byte_post f buf :
  wf f -> bytes (l_input f) ->
  post (crash_ev (l_input f)) (consume_escaped_byte f buf) (esc_ok f buf).
Proof.
  intros Hw Hb. unfold consume_escaped_byte. cbv zeta.
  assert (Hone : forall g b, adv 1 f g -> b < 256 -> esc_ok f buf (None, buf ++ [b], g)).
  { intros g b Hg Hlt. split; [exact Hg|]. split; [|left; reflexivity]. cbn [fst snd].
    apply keeps_app. intros. apply bytes_one, Hlt. }
  assert (Hcur : forall g, adv 0 f g -> current_char g < 256).
  { intros g Hg. eapply adv_cur_byte; eauto. }
  destruct (isoctal (current_char f)) eqn:Eo.
  { pose proof (oct_loop_adv 3 f 0) as Ho. unfold consume_octal_number.
    destruct (oct_loop 3 f 0) as [n g]. cbn [post snd] in *. apply Hone; [exact Ho|apply to_char_byte]. }
  destruct (current_char f =? "x"%ch) eqn:Ex.
  { pose proof (hex_loop_adv 2 (advance f) 0) as Ho. unfold consume_hex_number.
    destruct (hex_loop 2 (advance f) 0) as [n g]. cbn [post snd] in *. apply Hone; [adv_solve|apply to_char_byte]. }
  destruct (current_char f =? "u"%ch) eqn:Eu.
  { assert (Hi : (l_idx f < l_size f)%nat) by (eapply current_char_eq_nz; [exact Eu|discriminate]).
    destruct (current_char (advance f) =? "{"%ch) eqn:Eb.
    - assert (Hi' : (l_idx (advance f) < l_size (advance f))%nat) by (eapply current_char_eq_nz; [exact Eb|discriminate]).
      apply post_bind. eapply post_weaken.
      + apply (braced_unicode_post _ (advance (advance f)) buf []); auto.
        * adv_lia.
        * exists (firstn (l_idx f) (l_input f)). cbn [app].
          apply N.eqb_eq in Eu. apply N.eqb_eq in Eb. rewrite <- Eb, <- Eu.
          rewrite <- (rest_cons (advance f) Hw Hi'), <- (rest_cons f Hw Hi).
          symmetry. apply firstn_skipn.
      + auto.
      + intros [[ok b] g]; cbn [fst snd]. intros (H1 & H2 & _).
        assert (Hk : keeps f buf b) by (eapply keeps_trans; [ | apply keeps_refl | exact H2]; apply adv_advn_r with (k := 2%nat) (m := 2%nat); adv_solve).
        destruct ok; cbn [post]; (split; [cbn [snd]; adv_solve|]); (split; [exact Hk|]); cbn [fst]; auto.
    - pose proof (hex_loop_adv 4 (advance f) 0) as Ho.
      assert (Hs : (fst (consume_hex_number 4 (advance f)) < 0x200000)%Z).
      { apply hex4_small. intros k. apply Hcur. adv_solve. }
      unfold consume_hex_number in *. destruct (hex_loop 4 (advance f) 0) as [n g]. cbn [fst snd] in *.
      apply post_bind. eapply post_weaken; [apply utf32_small; exact Hs | exact (fun _ H => H) |].
      intros bs Hbs. cbn [post]. split; [cbn [snd]; adv_solve|]. split; [|left; reflexivity].
      apply keeps_app. auto. }
  destruct (current_char f =? "a"%ch); [apply Hone; [adv_solve|lia]|].
  destruct (current_char f =? "b"%ch); [apply Hone; [adv_solve|lia]|].
  destruct (_ || _).
  { pose proof (control_character_adv false f) as Hc. destruct (control_character false f) as [[n|] g]; cbn [snd post] in *.
    - apply Hone; [adv_solve|apply to_char_byte].
    - split; [exact Hc|]. split; [apply keeps_refl|]. cbn; auto. }
  destruct (current_char f =? "e"%ch); [apply Hone; [adv_solve|lia]|].
  destruct (current_char f =? "f"%ch); [apply Hone; [adv_solve|lia]|].
  destruct (current_char f =? "M"%ch).
  { destruct (negb _).
    { split; [cbn [snd]; adv_solve|]. split; [apply keeps_refl|]. cbn; auto. }
    destruct (_ && _).
    - pose proof (control_character_adv true (advance (advance (advance f)))) as Hc.
      destruct (control_character true (advance (advance (advance f)))) as [[n|] g]; cbn [snd post] in *.
      + apply Hone; [adv_solve|apply to_char_byte].
      + apply Hone; [adv_solve|lia].
    - apply Hone; [adv_solve|apply to_char_byte]. }
  repeat match goal with |- post _ (if ?b then _ else _) _ => destruct b; [try (apply Hone; [adv_solve|lia])|] end.
  - split; [cbn [snd]; adv_solve|]. split; [apply keeps_refl|]. cbn; auto.
  - apply Hone; [adv_solve|]. apply Hcur. adv_solve.
Qed.

(** * LexWords: sources that are one word *)
From Coq Require Import Strings.String NArith ZArith Bool Arith List Lia ZifyBool ZifyNat ZifyN.
From Verif Require Import Base Token Spec SpecLit LexModel LexBasics LexRest LexInv LexFwd LexIdent TokensProofs.
Import ListNotations.
Open Scope N_scope.

Lemma reserved_keywords k t : In (k, t) reserved <-> In (k, t) keywords.
Proof.
  assert (Hdec : forall a b : str * ttype, (str_eqb (fst a) (fst b) && ttype_eqb (snd a) (snd b)) = true -> a = b).
  { intros [a1 a2] [b1 b2] H. cbn [fst snd] in H. apply andb_prop in H. destruct H as [H1 H2].
    apply str_eqb_eq in H1. apply ttype_eqb_iff in H2. congruence. }
  assert (A : forall l1 l2, forallb (fun a => existsb (fun b => str_eqb (fst a) (fst b) && ttype_eqb (snd a) (snd b)) l2) l1 = true ->
    In (k, t) l1 -> In (k, t) l2).
  { intros l1 l2 H Hin. rewrite forallb_forall in H. specialize (H _ Hin). apply existsb_exists in H.
    destruct H as (b & Hb & E). apply Hdec in E. subst b. exact Hb. }
  split; apply A; vm_compute; reflexivity.
Qed.

Lemma ident_start_name c : ident_start c -> name_start c = true.
Proof.
  unfold ident_start, name_start, is_name_start_char, between. intros. destruct (c =? 0) eqn:E; lia.
Qed.
Lemma ident_char_ok c : ident_char c -> is_identifier_char c = true.
Proof.
  unfold ident_char, ident_start, is_identifier_char, isalnum, isalpha, isdigit, between. intros.
  destruct (c =? 0) eqn:E; [lia|]. cbv beta iota. lia.
Qed.

Definition word_tok (t : ttype) (l : option str) : token := Tok t l None 0 [] 0 0 false.

Lemma at_end f s : at_text f s -> at_text (advance_n (length s) f) [].
Proof. intros H. apply at_adv_n. rewrite app_nil_r. exact H. Qed.

Lemma word_source c w fuel : ident_start c -> c <> 0xEF -> Forall ident_char w ->
  (forall t, ~ In (c :: w, t) reserved) -> (2 <= fuel)%nat ->
  exists ts, tokens fuel (c :: w) = Ok ts /\
    shapes ts = [(if between "A"%ch "Z"%ch c then T_Constant else T_BareName, Some (c :: w)); (T_Eof, None)].
Proof.
  intros Hc He Hw Hk Hf.
  assert (Hat : at_text (set_tokpos (new_lx (c :: w)) false) (c :: w ++ [])) by (rewrite app_nil_r; split; reflexivity).
  eexists. split.
  - eapply tokens_single.
    + apply (lex_ident_fwd _ c w []); auto; try discriminate.
      * apply ident_start_name. exact Hc.
      * eapply Forall_impl; [|exact Hw]. apply ident_char_ok.
      * intros [t Ht]. apply (Hk t). apply reserved_keywords. exact Ht.
    + discriminate.
    + cbn [hd]. intros ->. unfold ident_start in Hc. lia.
    + cbn [hd]. intros ->. unfold ident_start, ch_tab in Hc. lia.
    + left. cbn [hd]. intros ->. unfold ident_start, ch_bs in Hc. lia.
    + exact He.
    + apply advance_n_frame.
    + rewrite (pos_advance_n (c :: w)); reflexivity.
    + destruct (between _ _ _); reflexivity.
    + destruct (between _ _ _); reflexivity.
    + destruct (between _ _ _); reflexivity.
    + destruct (between _ _ _); reflexivity.
    + exact Hf.
  - reflexivity.
Qed.

Lemma keyword_source k t fuel : In (k, t) reserved -> (2 <= fuel)%nat ->
  exists ts, tokens fuel k = Ok ts /\ shapes ts = [(t, None); (T_Eof, None)].
Proof.
  intros Hin Hf.
  assert (A : forallb (fun p => negb (hd 0 (fst p) =? " "%ch) && negb (hd 0 (fst p) =? ch_tab) && negb (hd 0 (fst p) =? ch_bs)
      && negb (hd 0 (fst p) =? 0xEF) && negb (hd 0 (fst p) =? 0)
      && negb (is_comment (snd p)) && negb (is_doc (snd p)) && negb (is_eof (snd p)) && is_valid (snd p)) reserved = true) by reflexivity.
  rewrite forallb_forall in A. specialize (A _ Hin). cbn [fst snd] in A. unfold ch_tab, ch_bs in *.
  assert (Hat : at_text (set_tokpos (new_lx k) false) (k ++ [])) by (rewrite app_nil_r; split; reflexivity).
  eexists. split.
  - eapply tokens_single.
    + apply (lex_keyword_fwd _ k t []); try reflexivity; try discriminate; auto. apply reserved_keywords. exact Hin.
    + intros ->. cbn in A. lia.
    + lia.
    + unfold ch_tab. lia.
    + left. unfold ch_bs. lia.
    + lia.
    + apply advance_n_frame.
    + rewrite (pos_advance_n k); reflexivity.
    + cbn [ty tk]. lia.
    + cbn [ty tk]. lia.
    + cbn [ty tk]. lia.
    + cbn [ty tk]. lia.
    + exact Hf.
  - reflexivity.
Qed.

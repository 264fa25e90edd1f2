(** * LexPunct: reading punctuation forward *)
From Coq Require Import Strings.String NArith ZArith Bool Arith List Lia ZifyBool ZifyNat ZifyN.
From Verif Require Import Base Token Spec SpecLit SpecLexeme LexModel LexBasics LexRest LexSwitch LexInv LexFwd LexNumbers LexIdent LexWords LexQuoted TokensProofs.
Import ListNotations.
Open Scope N_scope.

(** [f'] is [f] with [n] characters read (and perhaps another ternary flag). *)
Record read (f : lx) (n : nat) (f' : lx) : Prop := {
  rd_input : l_input f' = l_input f; rd_size : l_size f' = l_size f; rd_cur : l_cur f' = l_cur (advance_n n f);
  rd_heredocs : l_heredocs f' = l_heredocs f; rd_last : l_last f' = l_last f; rd_names : l_names f' = l_names f;
  rd_start : l_start f' = l_start f; rd_stop : l_stop f' = l_stop f; rd_depth : l_depth f' = l_depth f }.
Lemma read_n f n : read f n (advance_n n f).
Proof. constructor; try reflexivity; rewrite (advance_n_frame n f); reflexivity. Qed.
Lemma read_ternary f n b : read f n (set_ternary (advance_n n f) b).
Proof. pose proof (read_n f n) as H. destruct H. constructor; assumption. Qed.

(** The token and the state behind the text [w]. *)
Definition reads (f : lx) (w : str) (t : token) : Prop :=
  exists f', lex_switch f = Ok (t, f', None) /\ read f (length w) f'.
Definition tk4 (f : lx) (t : ttype) (l : option str) (z : Z) (d : str) : token :=
  Tok t l None z d (l_tline f) (l_tcol f) (l_ws f).

Lemma reads_n f w t : lex_switch f = Ok (t, advance_n (length w) f, None) -> reads f w t.
Proof. intros H. eexists. split; [exact H|apply read_n]. Qed.

(** ** Punctuation *)
Definition prefixb (p s : str) : bool := str_eqb p (firstn (length p) s).
Lemma prefixb_true p s : prefixb p s = true -> exists r, s = p ++ r.
Proof.
  intros H. apply str_eqb_eq in H. exists (skipn (length p) s). rewrite H at 1. symmetry. apply firstn_skipn.
Qed.
Definition longestb (w r : str) : bool :=
  forallb (fun p => (length (fst p) <=? length w)%nat || negb (prefixb (fst p) (w ++ r))) punctuation.
Lemma longest_b w r : longest w r -> longestb w r = true.
Proof.
  intros H. apply forallb_forall. intros [p t] Hin. cbn [fst].
  destruct (prefixb p (w ++ r)) eqn:E; [|apply orb_true_r].
  destruct (prefixb_true _ _ E) as [r' E']. rewrite (proj2 (Nat.leb_le _ _) (H p t r' Hin E')). reflexivity.
Qed.

Lemma hd_is (r : str) k : hd 0 r = k -> k <> 0 -> exists r', r = k :: r'.
Proof. destruct r as [|c r']; cbn; intros H1 H2; [congruence|]. subst. eauto. Qed.

Ltac notlonger r L :=
  repeat match goal with
  | |- context [hd 0 r =? ?k] =>
      let E := fresh "E" in
      destruct (hd 0 r =? k) eqn:E;
      [exfalso; apply N.eqb_eq in E; apply hd_is in E; [|discriminate]; destruct E as [? ->]; vm_compute in L; discriminate L|]
  end.

(** The tokens of one, two and three characters. *)
Lemma reads1 f c t : lex_switch f = Ok (tk (advance f) t, advance f, None) -> reads f [c] (tk4 f t None 0 []).
Proof. intros H. apply reads_n. exact H. Qed.
Lemma reads2 f c d t : lex_switch f = Ok (tk (advance (advance f)) t, advance (advance f), None) -> reads f [c; d] (tk4 f t None 0 []).
Proof. intros H. apply reads_n. exact H. Qed.
Lemma reads3 f c d e t : lex_switch f = Ok (tk (advance (advance (advance f))) t, advance (advance (advance f)), None) ->
  reads f [c; d; e] (tk4 f t None 0 []).
Proof. intros H. apply reads_n. exact H. Qed.

Lemma blank_cases r : blank_next r -> hd 0 r = 32 \/ hd 0 r = 10.
Proof. exact (fun H => H). Qed.
Ltac known := repeat match goal with
  | H : at_text ?g (?c :: _) |- context [current_char ?g] => rewrite (at_cur g _ _ H)
  | H : at_text ?g ?w |- context [current_char ?g] => rewrite (at_cur_hd g w H)
  end.

Ltac unary Hx := destruct (_ =? 64) eqn:E64; [|reflexivity]; apply N.eqb_eq in E64;
  match goal with |- context [true && ?n] => destruct n; [exfalso; exact (Hx eq_refl E64)|reflexivity] end.
Lemma ttype_neq a b : a <> b -> ttype_eqb a b = false.
Proof. intros H. destruct (ttype_eqb a b) eqn:E; [apply ttype_eqb_iff in E; congruence|reflexivity]. Qed.
Lemma ends_value_valid t : ends_value t = true -> is_valid t = true.
Proof. destruct t; try discriminate; reflexivity. Qed.
Lemma ends_value_slash {A} t (x y : A) : ends_value t = true ->
  match t with
  | T_Comma | T_Doc | T_Equal | T_LBracket | T_LCurlyBrace | T_LParen
  | T_Match | T_Newline | T_Not | T_Pipe => x
  | _ => y
  end = y.
Proof. destruct t; try discriminate; reflexivity. Qed.

(** The state of the lexer says what stands before it. *)
Record here (f : lx) (p : place) : Prop := {
  hr_prev : ty (l_last f) = prev p;
  hr_last : prev p = T_Invalid \/ is_valid (prev p) = true;
  hr_naming : n_rem (l_names f) = (if naming p then 1 else 0);
  hr_setter : n_allow (l_names f) = setter p;
  hr_sep : n_sep (l_names f) = T_Invalid }.

(** No string in front that a colon could make a key. *)
Lemma apart_no {A} f p (x y : A) b : here f p -> apart p (l_ws f) ->
  (if ttype_eqb (ty (l_last f)) T_InterpolatedStringEnd && negb (l_ws f) && b then x else y) = y.
Proof.
  intros [Hp _ _ _ _] H. rewrite Hp. destruct (ttype_eqb (prev p) T_InterpolatedStringEnd) eqn:E; [|reflexivity].
  apply ttype_eqb_iff in E. rewrite (H E). reflexivity.
Qed.

Lemma punct_fwd f w t r p :
  at_text f (w ++ r) -> In (w, t) punctuation -> here f p ->
  fits p (l_ws f) (L_punct w t) r -> reads f w (tk4 f t None 0 []).
Proof.
  intros Hat Hin Hh [L Hx]. pose proof Hh as [Hp Hp' Hn _ _]. rewrite <- Hp in Hx, Hp'. remember (naming p) as name eqn:En. clear En.
  apply longest_b in L.
  assert (Hrem : forall g, l_names g = l_names f -> (0 <? n_rem (l_names g)) = name) by (intros g ->; rewrite Hn; destruct name; reflexivity).
  assert (Ha : forall g, l_names (advance g) = l_names g) by reflexivity.
  unfold punctuation in Hin. cbn [In] in Hin.
  repeat (destruct Hin as [Hin|Hin]); try contradiction; injection Hin as <- <-;
    match type of Hat with at_text _ (?w ++ r) => let v := eval vm_compute in w in change (w ++ r) with (v ++ r) in Hat; cbn [app] in Hat end;
    pose proof (at_adv _ _ _ Hat) as H1; try pose proof (at_adv _ _ _ H1) as H2; try pose proof (at_adv _ _ _ H2) as H3.
  all: try match goal with
    | |- reads _ [_] _ => apply reads1; unfold lex_switch; known; eqb_consts; known; eqb_consts; notlonger r L; cbn [orb andb]; reflexivity
    | |- reads _ [_; _] _ => apply reads2; unfold lex_switch; known; eqb_consts; known; eqb_consts; known; eqb_consts; notlonger r L; cbn [orb andb]; reflexivity
    | |- reads _ [_; _; _] _ => apply reads3; unfold lex_switch; known; eqb_consts; known; eqb_consts; known; eqb_consts; known; eqb_consts; reflexivity
    end.
  all: cbn [fits] in Hx.
  - (* = *) apply reads1. unfold lex_switch. known. eqb_consts. known. eqb_consts. notlonger r L.
    replace (match_ (advance f) (s2l "begin")) with (@None lx).
    + destruct (_ =? 1)%nat; reflexivity.
    + destruct (match_ (advance f) (s2l "begin")) as [g|] eqn:Em; [|reflexivity].
      destruct (match_some _ _ _ _ H1 Em) as (r' & E' & _). exfalso. apply Hx. exists r'. exact E'.
  - (* + *) apply reads1. unfold lex_switch. known. eqb_consts. known. eqb_consts. notlonger r L. rewrite Hrem by reflexivity.
    unary Hx.
  - (* - *) apply reads1. unfold lex_switch. known. eqb_consts. known. eqb_consts. notlonger r L. rewrite Hrem by reflexivity.
    unary Hx.
  - (* / *) destruct Hx as [Hv Hr]. apply reads1. unfold lex_switch. known. eqb_consts. rewrite Hrem by reflexivity.
    change (ty (l_last (advance f))) with (ty (l_last f)). change (l_ws (advance f)) with (l_ws f).
    rewrite (ends_value_valid _ Hv). cbn [negb]. destruct name; [reflexivity|].
    rewrite ends_value_slash by exact Hv. known. notlonger r L.
    replace (is_keyword (ty (l_last f)) && can_precede_regexp_literal (ty (l_last f))) with false
      by (destruct (ty (l_last f)); try discriminate Hv; reflexivity).
    destruct Hr as [Hr|Hr]; rewrite Hr; [reflexivity|]. destruct (hd 0 r =? 32); reflexivity.
  - (* /= *) destruct Hx as [Hv Hr]. apply reads2. unfold lex_switch. known. eqb_consts. rewrite Hrem by reflexivity.
    change (ty (l_last (advance f))) with (ty (l_last f)).
    rewrite (ends_value_valid _ Hv). cbn [negb]. rewrite Hr.
    rewrite ends_value_slash by exact Hv. known. eqb_consts. reflexivity.
  - (* % *) apply reads1. unfold lex_switch. known. eqb_consts. known. unfold consume_percent_string. rewrite Hrem by reflexivity.
    known. destruct Hx as [Hx|Hx]; rewrite Hx; eqb_consts; (destruct name; [reflexivity|]); reflexivity.
  - (* ! *) apply reads1. unfold lex_switch. known. eqb_consts. known. eqb_consts. notlonger r L. rewrite Hrem by reflexivity.
    unary Hx.
  - (* << *) destruct Hx as [Hw Hx]. apply reads2. unfold lex_switch. known. eqb_consts. known. eqb_consts. known.
    change (l_ws (advance (advance f))) with (l_ws f). rewrite Hw.
    destruct Hx as [Hx|Hx]; rewrite Hx; reflexivity.
  - (* ~ *) apply reads1. unfold lex_switch. known. eqb_consts. known. eqb_consts. rewrite Hrem by reflexivity.
    unary Hx.
  - (* ? *) exists (set_ternary (advance f) true). split; [|exact (read_ternary f 1 true)].
    unfold lex_switch. known. eqb_consts. known. destruct Hx as [Hx|Hx]; rewrite Hx; reflexivity.
  - (* : *) exists (set_ternary (advance f) false). split; [|exact (read_ternary f 1 false)].
    unfold lex_switch. known. eqb_consts. known. destruct Hx as [Hx Hap].
    change (ty (l_last (advance f))) with (ty (l_last f)). change (l_ws (advance f)) with (l_ws f). rewrite (apart_no f p) by assumption.
    destruct Hx as [Hx|Hx]; rewrite Hx; reflexivity.
Qed.

(** * TokensProofs: invariants of the loop in Lexer::tokens() *)
From Coq Require Import Strings.String NArith ZArith Bool Arith List Lia ZifyBool ZifyNat ZifyN.
From Verif Require Import Base Token Spec LexModel.
Import ListNotations.
Open Scope N_scope.

(** ** Proofs *)

Lemma ttype_eqb_iff a b : ttype_eqb a b = true <-> a = b.
Proof. split; [|intros ->]; [destruct a; try (destruct b; try discriminate; reflexivity)|destruct b; reflexivity]. Qed.

Lemma is_eof_iff t : is_eof t = true <-> t = T_Eof.
Proof. split; [destruct t; try discriminate; reflexivity|intros ->; reflexivity]. Qed.
Lemma is_newline_iff t : is_newline t = true <-> t = T_Newline.
Proof. split; [destruct t; try discriminate; reflexivity|intros ->; reflexivity]. Qed.
Lemma is_valid_iff t : is_valid t = false <-> type_value t = None.
Proof. unfold is_valid. destruct (type_value t); split; congruence. Qed.

(** Reversed vector during the run: nothing final, no comments, no bad pair. *)
Definition mid_ok (acc : list token) : Prop :=
  Forall (fun t => ~ final_token t /\ ty t <> T_Comment /\ ty t <> T_Doc) acc.
Definition bad_pair (a b : token) : Prop :=
  ty b = T_Newline /\ can_precede_collapsible_newline (ty a) = true \/
  ty a = T_Newline /\ can_follow_collapsible_newline (ty b) = true.
Fixpoint chain_ok (acc : list token) : Prop :=
  match acc with
  | b :: ((a :: _) as acc') => ~ bad_pair a b /\ chain_ok acc'
  | _ => True
  end.
Definition head_skip (acc : list token) : bool :=
  match acc with [] => false | a :: _ => can_precede_collapsible_newline (ty a) end.

Lemma pop_newlines_suffix acc : exists p, acc = p ++ pop_newlines acc.
Proof.
  induction acc as [|t acc [p IH]]; [exists []; reflexivity|].
  cbn [pop_newlines]. destruct (is_newline (ty t)); [exists (t :: p); simpl; congruence|exists []; reflexivity].
Qed.
Lemma pop_newlines_head acc : match pop_newlines acc with [] => True | a :: _ => ty a <> T_Newline end.
Proof.
  induction acc as [|t acc IH]; cbn [pop_newlines]; auto.
  destruct (is_newline (ty t)) eqn:E; auto. intros H. apply is_newline_iff in H. congruence.
Qed.
Lemma chain_ok_tail p acc : chain_ok (p ++ acc) -> chain_ok acc.
Proof.
  induction p as [|x p IH]; auto. intros H. apply IH. simpl in H. destruct (p ++ acc); [exact I|]. apply H.
Qed.
Lemma mid_ok_tail p acc : mid_ok (p ++ acc) -> mid_ok acc.
Proof. unfold mid_ok. rewrite Forall_app. tauto. Qed.

(** Only the pair condition of a token with what follows matters after popping:
    popping a newline never makes the next newline legal again, because it is
    [skip] (computed from the token pushed last) that guards newlines. *)
Definition result_ok (r : list token) : Prop :=
  exists acc t, r = rev (t :: acc) /\ final_token t /\ mid_ok acc /\ ty t <> T_Comment /\ ty t <> T_Doc /\
    chain_ok (t :: acc).

Lemma tokens_loop_ok fuel : forall l acc skip pending r,
  mid_ok acc -> chain_ok acc -> skip = head_skip acc ->
  tokens_loop fuel l acc skip pending = Ok r -> result_ok r.
Proof.
  induction fuel as [|fuel IH]; intros l acc skip pending r Hm Hc Hs H; [discriminate|].
  cbn [tokens_loop] in H. unfold bind in H.
  destruct (next_token l) as [[t l']| |]; try discriminate.
  destruct (is_comment (ty t)) eqn:Ecm; [eauto|].
  destruct (is_doc (ty t)) eqn:Edc; [eauto|].
  destruct (skip && is_newline (ty t)) eqn:Esk; [eauto|].
  set (acc' := if can_follow_collapsible_newline (ty t) then pop_newlines acc else acc) in *.
  assert (Hm' : mid_ok acc').
  { subst acc'. destruct (can_follow_collapsible_newline _); auto.
    destruct (pop_newlines_suffix acc) as [p Hp]. rewrite Hp in Hm. eapply mid_ok_tail; eauto. }
  assert (Hc' : forall u, ty u = ty t -> chain_ok (u :: acc')).
  { intros u Hu. assert (Hcc : chain_ok acc').
    { subst acc'. destruct (can_follow_collapsible_newline _); auto.
      destruct (pop_newlines_suffix acc) as [p Hp]. rewrite Hp in Hc. eapply chain_ok_tail; eauto. }
    assert (Hh : match acc' with [] => True | a :: _ => ~ bad_pair a u end); [|destruct acc'; [exact I|split; auto]].
    destruct acc' as [|a rest] eqn:Ea; [exact I|].
    intros [[H1 H2]|[H1 H2]]; rewrite Hu in *.
    - assert (can_follow_collapsible_newline (ty t) = false) as Hcf by (rewrite H1; reflexivity).
      unfold acc' in Ea. rewrite Hcf in Ea. subst acc. cbn [head_skip] in Hs. rewrite H2 in Hs.
      rewrite H1 in Esk. rewrite Hs in Esk. discriminate.
    - unfold acc' in Ea. rewrite H2 in Ea. pose proof (pop_newlines_head acc) as Hp. rewrite Ea in Hp. auto. }
  clearbody acc'.
  assert (Hty : forall d, ty (set_doc t d) = ty t) by reflexivity.
  assert (Hfin : forall u, ty u = ty t ->
    (if is_eof (ty u) then Ok (rev (u :: acc'))
     else if negb (is_valid (ty u)) then Ok (rev (u :: acc')) else NoFuel) = Ok r -> result_ok r).
  { intros u Hu Hr. exists acc', u. split.
    - destruct (is_eof (ty u)); [congruence|]. destruct (negb (is_valid (ty u))); congruence.
    - split.
      + destruct (is_eof (ty u)) eqn:E; [left; apply is_eof_iff, E|].
        destruct (is_valid (ty u)) eqn:E'; [discriminate|]. right. apply is_valid_iff, E'.
      + split; [exact Hm'|]. rewrite Hu. split; [intros E; rewrite E in Ecm; discriminate|].
        split; [intros E; rewrite E in Edc; discriminate|auto]. }
  assert (Hgo : forall u pend, ty u = ty t ->
    (if is_eof (ty u) then Ok (rev (u :: acc'))
     else if negb (is_valid (ty u)) then Ok (rev (u :: acc'))
     else tokens_loop fuel (record_last l' u) (u :: acc') (can_precede_collapsible_newline (ty u)) pend) = Ok r ->
    result_ok r).
  { intros u pend Hu Hr.
    destruct (is_eof (ty u)) eqn:E1; [apply (Hfin u Hu); rewrite E1; exact Hr|].
    destruct (is_valid (ty u)) eqn:E2; cbn [negb] in Hr.
    - eapply IH; [| | |exact Hr]; [|auto|reflexivity].
      constructor; auto. split.
      + intros [Hx|Hx]; [rewrite Hx in E1; discriminate|apply is_valid_iff in Hx; congruence].
      + rewrite Hu. split; intros E; rewrite E in *; discriminate.
    - apply (Hfin u Hu). rewrite E1, E2. exact Hr. }
  destruct pending as [d|].
  - destruct (can_have_doc (ty t)); [eapply (Hgo (set_doc t d)); eauto|].
    destruct (negb (is_end_of_line (ty t))); eapply (Hgo t); eauto.
  - eapply (Hgo t); eauto.
Qed.

Lemma tokens_result_ok fuel s r : tokens fuel s = Ok r -> result_ok r.
Proof. apply tokens_loop_ok; simpl; auto. constructor. Qed.

Lemma chain_ok_adjacent acc : chain_ok acc -> forall a b, adjacent a b (rev acc) -> ~ bad_pair a b.
Proof.
  intros H a b (l & r & E).
  assert (E' : acc = rev r ++ b :: a :: rev l).
  { rewrite <- (rev_involutive acc), E, rev_app_distr. simpl. rewrite <- !app_assoc. reflexivity. }
  subst acc. apply chain_ok_tail in H. apply H.
Qed.

Lemma tokens_shape fuel s ts : tokens fuel s = Ok ts ->
  exists init t, ts = init ++ [t] /\ final_token t /\ Forall (fun u => ~ final_token u) init.
Proof.
  intros H. destruct (tokens_result_ok _ _ _ H) as (acc & t & -> & Hf & Hm & _).
  exists (rev acc), t. split; [reflexivity|]. split; [exact Hf|].
  apply Forall_rev. eapply Forall_impl; [|exact Hm]. cbv beta; tauto.
Qed.
Lemma tokens_no_comment fuel s ts : tokens fuel s = Ok ts ->
  forall t, In t ts -> ty t <> T_Comment /\ ty t <> T_Doc.
Proof.
  intros H u Hu. destruct (tokens_result_ok _ _ _ H) as (acc & t & -> & Hf & Hm & H1 & H2 & _).
  apply in_rev in Hu. destruct Hu as [<-|Hu]; [auto|].
  unfold mid_ok in Hm. rewrite Forall_forall in Hm. apply Hm in Hu. tauto.
Qed.
Lemma tokens_collapse fuel s ts : tokens fuel s = Ok ts ->
  forall a b, adjacent a b ts ->
    (ty b = T_Newline -> can_precede_collapsible_newline (ty a) = false) /\
    (ty a = T_Newline -> can_follow_collapsible_newline (ty b) = false).
Proof.
  intros H a b Hab. destruct (tokens_result_ok _ _ _ H) as (acc & t & -> & _ & _ & _ & _ & Hc).
  pose proof (chain_ok_adjacent _ Hc _ _ Hab) as Hn. unfold bad_pair in Hn.
  split; intros E.
  - destruct (can_precede_collapsible_newline (ty a)); auto. exfalso. auto.
  - destruct (can_follow_collapsible_newline (ty b)); auto. exfalso. auto.
Qed.

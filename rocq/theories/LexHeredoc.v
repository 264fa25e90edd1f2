(** * LexHeredoc: what the body of a heredoc can contain *)
From Coq Require Import Strings.String NArith ZArith Bool Arith List Lia ZifyBool ZifyNat ZifyN.
From Verif Require Import Base Token Spec LexModel LexBasics LexRest LexLoops LexSpec.
Import ListNotations.
Open Scope N_scope.

(** Number of '<' characters. *)
Definition lts (s : str) : nat := count_occ N.eq_dec s "<"%ch.

Lemma lts_app a b : lts (a ++ b) = (lts a + lts b)%nat.
Proof. apply count_occ_app. Qed.
Lemma lts_firstn n s : (lts (firstn n s) <= lts s)%nat.
Proof. rewrite <- (firstn_skipn n s) at 2. rewrite lts_app. lia. Qed.
Lemma lts_skipn n s : (lts (skipn n s) <= lts s)%nat.
Proof. rewrite <- (firstn_skipn n s) at 2. rewrite lts_app. lia. Qed.
Lemma lts_in s : In "<"%ch s <-> (0 < lts s)%nat.
Proof. apply count_occ_In. Qed.
Lemma lts_space s : Forall (fun c => isspace c = true) s -> lts s = 0%nat.
Proof.
  induction 1 as [|c s Hc _ IH]; [reflexivity|]. unfold lts in *. simpl.
  destruct (N.eq_dec c "<"%ch) as [->|]; [discriminate|exact IH].
Qed.

(** Newline-free text inside [x] occurs in [doc]. *)
Definition nlfree (w : str) : Prop := ~ In ch_nl w.
Definition lines_of (doc x : str) : Prop := forall w, nlfree w -> contains w x -> contains w doc.

Lemma lines_of_refl d : lines_of d d.
Proof. intros w _ H; exact H. Qed.
Lemma lines_of_trans a b c : lines_of a b -> lines_of b c -> lines_of a c.
Proof. unfold lines_of; auto. Qed.
Lemma lines_of_contains d x : contains x d -> lines_of d x.
Proof. intros H w _ Hw. eapply contains_trans; eauto. Qed.
Lemma contains_nil s : contains [] s.
Proof. exists [], s. reflexivity. Qed.
Lemma contains_firstn n s : contains (firstn n s) s.
Proof. exists [], (skipn n s). simpl. symmetry. apply firstn_skipn. Qed.
Lemma contains_skipn n s : contains (skipn n s) s.
Proof. exists (firstn n s), []. rewrite app_nil_r. symmetry. apply firstn_skipn. Qed.

Lemma nlfree_split w a b : nlfree w -> contains w (a ++ ch_nl :: b) -> contains w a \/ contains w b.
Proof.
  intros Hw (l & r & H). revert a H. induction l as [|x l IH]; intros a H.
  - simpl in H. left. revert a H. induction w as [|y w IH]; intros a H.
    + apply contains_nil.
    + destruct a as [|z a]; simpl in H.
      * exfalso. apply Hw. left. congruence.
      * injection H as -> H. assert (Hw' : nlfree w) by (intros Hin; apply Hw; right; exact Hin).
        (* the whole of w is a prefix of a *)
        assert (Hp : forall w a, nlfree w -> a ++ ch_nl :: b = w ++ r -> exists q, a = w ++ q).
        { clear. induction w as [|y w IH]; intros a Hw H; [exists a; reflexivity|].
          destruct a as [|z a]; simpl in H.
          - exfalso. apply Hw. left. congruence.
          - injection H as -> H. destruct (IH a) as [q ->].
            + intros Hin; apply Hw; right; exact Hin.
            + exact H.
            + exists q. reflexivity. }
        destruct (Hp w a Hw' H) as [q ->]. exists [], q. reflexivity.
  - destruct a as [|z a]; simpl in H.
    + right. injection H as _ H. exists l, r. exact H.
    + injection H as -> H. destruct (IH a H) as [(l' & r' & ->)|Hb]; [left|right; exact Hb].
      exists (x :: l'), r'. reflexivity.
Qed.

Lemma lines_of_app doc x y : lines_of doc (x ++ [ch_nl]) -> lines_of doc y -> lines_of doc ((x ++ [ch_nl]) ++ y).
Proof.
  intros Hx Hy w Hw Hc. rewrite <- app_assoc in Hc. simpl in Hc.
  destruct (nlfree_split w x y Hw Hc) as [H|H]; [|auto].
  apply Hx; [exact Hw|]. destruct H as (l & r & ->). exists l, (r ++ [ch_nl]). rewrite <- !app_assoc. reflexivity.
Qed.
Lemma lines_of_snoc doc x : lines_of doc x -> lines_of doc (x ++ [ch_nl]).
Proof.
  intros Hx w Hw Hc. change (x ++ [ch_nl]) with (x ++ ch_nl :: []) in Hc.
  destruct (nlfree_split w x [] Hw Hc) as [H|(l & r & H)]; [auto|].
  symmetry in H. apply app_eq_nil in H. destruct H as [_ H]. apply app_eq_nil in H. destruct H as [-> _].
  apply contains_nil.
Qed.

Lemma strip_leading_spaces_skipn s : exists n, strip_leading_spaces s = skipn n s.
Proof.
  induction s as [|c s [n IH]]; [exists 0%nat; reflexivity|]. simpl.
  destruct (c =? " "%ch); [exists (S n); exact IH | exists 0%nat; reflexivity].
Qed.
Lemma strip_trailing_spaces_firstn s : exists n, strip_trailing_spaces s = firstn n s.
Proof.
  unfold strip_trailing_spaces. destruct (strip_leading_spaces_skipn (rev s)) as [n ->].
  exists (length s - n)%nat. rewrite skipn_rev, rev_involutive. reflexivity.
Qed.

(** ** Dedent *)

Lemma substring_contains s a n : contains (substring s a n) s.
Proof. eapply contains_trans; [apply contains_firstn | apply contains_skipn]. Qed.

Lemma dedent_loop_lines doc rest_ i indent lb nd :
  lines_of doc nd -> (nd = [] \/ exists x, nd = x ++ [ch_nl]) ->
  lines_of doc (dedent_loop doc rest_ i indent lb nd).
Proof.
  revert i lb nd. induction rest_ as [|c rs IH]; intros i lb nd Hnd Hend; simpl; [exact Hnd|].
  destruct (c =? ch_nl); [|apply IH; assumption].
  apply IH.
  - apply lines_of_snoc. destruct (_ <? i); [|exact Hnd].
    assert (Hs : lines_of doc (substring doc (wrap (lb + indent)) (i - wrap (lb + indent))))
      by apply lines_of_contains, substring_contains.
    destruct Hend as [-> | [x ->]]; [exact Hs | apply lines_of_app; assumption].
  - right. eexists. reflexivity.
Qed.
Lemma dedent_lines doc : lines_of doc (dedent_heredoc doc).
Proof.
  unfold dedent_heredoc. destruct (_ =? 0); [apply lines_of_refl|].
  apply dedent_loop_lines; [|left; reflexivity].
  intros w _ (l & r & H). symmetry in H. apply app_eq_nil in H. destruct H as [_ H].
  apply app_eq_nil in H. destruct H as [-> _]. apply contains_nil.
Qed.

Lemma bytes_contains a b : contains a b -> bytes b -> bytes a.
Proof. intros (l & r & ->) H. apply Forall_app in H. destruct H as [_ H]. apply Forall_app in H. apply H. Qed.
Lemma bytes_dedent doc : bytes doc -> bytes (dedent_heredoc doc).
Proof.
  intros Hb. unfold dedent_heredoc. destruct (_ =? 0); [exact Hb|].
  assert (Hl : forall rs i ind lb nd, bytes nd -> bytes (dedent_loop doc rs i ind lb nd)).
  { induction rs as [|c rs IH]; intros; simpl; [assumption|].
    destruct (c =? ch_nl); [|apply IH; assumption]. apply IH.
    apply bytes_app; [|repeat constructor]. destruct (_ <? i); [|assumption].
    apply bytes_app; [assumption|]. eapply bytes_contains; [apply substring_contains|exact Hb]. }
  apply Hl. constructor.
Qed.

Lemma indent_le s hi li mb : indent_loop s hi li mb <= hi.
Proof.
  revert hi li mb. induction s as [|c s IH]; intros; simpl; [lia|].
  destruct (c =? ch_nl).
  - destruct (negb mb && (li <? hi)) eqn:E; [|apply IH].
    etransitivity; [apply IH|]. apply andb_true_iff in E. lia.
  - destruct (isspace c); apply IH.
Qed.

Definition blank_prefix (s : str) : Prop :=
  exists a b, s = a ++ b /\ Forall (fun c => isspace c = true) a /\ nlfree b.

Lemma indent_dich s li mb :
  li + N.of_nat (length s) < size_max ->
  indent_loop s size_max li mb <= li + N.of_nat (length s) \/
  (blank_prefix s /\ (mb = true \/ nlfree s)).
Proof.
  revert li mb. induction s as [|c s IH]; intros li mb Hlen; cbn [indent_loop length] in *.
  { right. split; [exists [], []; repeat split; auto; intros [] | right; intros []]. }
  destruct (c =? ch_nl) eqn:En.
  - apply N.eqb_eq in En. destruct mb; cbn [negb andb].
    + destruct (IH 0 true) as [H|[(a & b & -> & Ha & Hb) _]]; [lia | left; lia |].
      right. split; [|left; reflexivity]. exists (c :: a), b. split; [reflexivity|]. split; [|exact Hb].
      constructor; [subst c; reflexivity | exact Ha].
    + replace (li <? size_max) with true by (symmetry; apply N.ltb_lt; lia).
      left. etransitivity; [apply indent_le|lia].
  - apply N.eqb_neq in En. destruct (isspace c) eqn:Es.
    + destruct (IH (if mb then li + 1 else li) mb) as [H|[(a & b & -> & Ha & Hb) Hm]].
      * destruct mb; lia.
      * left. destruct mb; lia.
      * right. split.
        -- exists (c :: a), b. split; [reflexivity|]. split; [constructor; assumption | exact Hb].
        -- destruct Hm as [Hm|Hm]; [left; exact Hm | right].
           intros [H|H]; [congruence | apply Hm; exact H].
    + destruct (IH li false) as [H|[_ [Hm|Hm]]]; [lia | left; lia | discriminate |].
      assert (Hn : nlfree (c :: s)) by (intros [H|H]; [congruence | apply Hm; exact H]).
      right. split; [|right; exact Hn]. exists [], (c :: s). repeat split; auto.
Qed.


Lemma lts_firstn_mono a b s : (a <= b)%nat -> (lts (firstn a s) <= lts (firstn b s))%nat.
Proof.
  intros H. replace (firstn a s) with (firstn a (firstn b s)).
  - apply lts_firstn.
  - rewrite firstn_firstn. f_equal. lia.
Qed.
Lemma lts_substring s a n b : a <= b ->
  (lts (firstn (N.to_nat a) s) + lts (substring s b n) <= lts (firstn (N.to_nat (b + n)) s))%nat.
Proof.
  intros H. unfold substring.
  replace (firstn (N.to_nat (b + n)) s)
    with (firstn (N.to_nat b) s ++ firstn (N.to_nat n) (skipn (N.to_nat b) s)).
  - rewrite lts_app. pose proof (lts_firstn_mono (N.to_nat a) (N.to_nat b) s). lia.
  - rewrite <- (firstn_skipn (N.to_nat b) s) at 3. rewrite firstn_app.
    replace (firstn (N.to_nat (b + n)) (firstn (N.to_nat b) s)) with (firstn (N.to_nat b) s)
      by (rewrite firstn_firstn; f_equal; lia).
    f_equal. rewrite firstn_length.
    destruct (Nat.le_gt_cases (length s) (N.to_nat b)) as [Hl|Hl].
    + rewrite (skipn_all2 s) by lia. rewrite !firstn_nil. reflexivity.
    + f_equal. lia.
Qed.

(** Without wrap-around the dedented text is no longer and has no more '<'. *)
Lemma dedent_loop_nowrap doc rs i indent lb nd :
  small doc -> indent <= N.of_nat (length doc) ->
  doc = firstn (N.to_nat i) doc ++ rs -> i + N.of_nat (length rs) = N.of_nat (length doc) ->
  lb <= i -> (length nd <= N.to_nat lb)%nat -> (lts nd <= lts (firstn (N.to_nat lb) doc))%nat ->
  (length (dedent_loop doc rs i indent lb nd) <= length doc)%nat /\
  (lts (dedent_loop doc rs i indent lb nd) <= lts doc)%nat.
Proof.
  intros Hs Hi. revert i lb nd. induction rs as [|c rs IH]; intros i lb nd Hd Hl Hlb Hn Hc; cbn [dedent_loop].
  { split; [simpl in Hl; lia|]. etransitivity; [exact Hc|apply lts_firstn]. }
  cbn [length] in Hl.
  assert (Hd' : doc = firstn (N.to_nat (i + 1)) doc ++ rs).
  { pose proof (f_equal (skipn (N.to_nat i)) Hd) as Hk.
    rewrite skipn_app in Hk. rewrite firstn_length_le in Hk by lia.
    rewrite Nat.sub_diag in Hk. rewrite (skipn_all2 (firstn _ _)) in Hk by (rewrite firstn_length; lia).
    simpl in Hk. rewrite <- (firstn_skipn (N.to_nat (i + 1)) doc) at 1. f_equal.
    replace (N.to_nat (i + 1)) with (N.to_nat i + 1)%nat by lia. rewrite <- skipn_add, Hk. reflexivity. }
  destruct (c =? ch_nl) eqn:En.
  - assert (Hw : wrap (lb + indent) = lb + indent).
    { unfold wrap. apply N.mod_small. unfold small in Hs. lia. }
    rewrite Hw. apply IH; try lia; [exact Hd'| |].
    + rewrite app_length. destruct (lb + indent <? i) eqn:E; simpl; [|lia].
      rewrite app_length. unfold substring. rewrite firstn_length. lia.
    + rewrite lts_app. apply N.eqb_eq in En. subst c.
      replace (lts [ch_nl]) with 0%nat by reflexivity.
      destruct (lb + indent <? i) eqn:E.
      * rewrite lts_app.
        pose proof (lts_substring doc lb (i - (lb + indent)) (lb + indent)).
        replace (lb + indent + (i - (lb + indent))) with i in H by lia.
        pose proof (lts_firstn_mono (N.to_nat i) (N.to_nat (i + 1)) doc). lia.
      * pose proof (lts_firstn_mono (N.to_nat lb) (N.to_nat (i + 1)) doc). lia.
  - apply IH; try lia; assumption.
Qed.

(** If every line is blank the dedented text has no '<' at all. *)
Lemma dedent_loop_blank doc rs i indent lb nd a b :
  doc = a ++ b -> Forall (fun c => isspace c = true) a -> nlfree b ->
  doc = firstn (N.to_nat i) doc ++ rs -> i + N.of_nat (length rs) = N.of_nat (length doc) ->
  lts nd = 0%nat -> lts (dedent_loop doc rs i indent lb nd) = 0%nat.
Proof.
  intros Hab Ha Hb. revert i lb nd. induction rs as [|c rs IH]; intros i lb nd Hd Hl Hn; cbn [dedent_loop]; [exact Hn|].
  cbn [length] in Hl.
  assert (Hk : skipn (N.to_nat i) doc = c :: rs).
  { pose proof (f_equal (skipn (N.to_nat i)) Hd) as Hk.
    rewrite skipn_app in Hk. rewrite firstn_length_le in Hk by lia.
    rewrite Nat.sub_diag in Hk. rewrite (skipn_all2 (firstn _ _)) in Hk by (rewrite firstn_length; lia).
    exact Hk. }
  assert (Hd' : doc = firstn (N.to_nat (i + 1)) doc ++ rs).
  { rewrite <- (firstn_skipn (N.to_nat (i + 1)) doc) at 1. f_equal.
    replace (N.to_nat (i + 1)) with (N.to_nat i + 1)%nat by lia. rewrite <- skipn_add, Hk. reflexivity. }
  destruct (c =? ch_nl) eqn:En; [|apply IH; auto; lia].
  apply N.eqb_eq in En. subst c.
  apply IH; [exact Hd'|lia|].
  rewrite lts_app. replace (lts [ch_nl]) with 0%nat by reflexivity. rewrite Nat.add_0_r.
  destruct (_ <? i) eqn:E; [|exact Hn]. rewrite lts_app, Hn. simpl.
  (* the piece lies before a newline of doc, hence inside a *)
  assert (Hia : (N.to_nat i < length a)%nat).
  { destruct (Nat.lt_ge_cases (N.to_nat i) (length a)) as [|H]; [assumption|exfalso].
    apply Hb. rewrite Hab in Hk. rewrite skipn_app in Hk. rewrite (skipn_all2 a) in Hk by lia. simpl in Hk.
    rewrite <- (firstn_skipn (N.to_nat i - length a) b), Hk. apply in_or_app. right. left. reflexivity. }
  apply lts_space. apply Forall_forall. intros x Hx.
  assert (Hx' : In x (firstn (N.to_nat i) doc)).
  { unfold substring in Hx.
    set (p := N.to_nat (wrap (lb + indent))) in *.
    replace (N.to_nat (i - wrap (lb + indent))) with (N.to_nat i - p)%nat in Hx by lia.
    rewrite <- skipn_firstn_comm in Hx || rewrite firstn_skipn_comm in Hx.
    replace (p + (N.to_nat i - p))%nat with (N.to_nat i) in Hx by lia.
    rewrite <- (firstn_skipn p (firstn (N.to_nat i) doc)). apply in_or_app. right. exact Hx. }
  rewrite Hab in Hx'. rewrite firstn_app in Hx'.
  replace (N.to_nat i - length a)%nat with 0%nat in Hx' by lia. simpl in Hx'. rewrite app_nil_r in Hx'.
  eapply Forall_forall in Ha; [exact Ha|]. rewrite <- (firstn_skipn (N.to_nat i) a). apply in_or_app. left. exact Hx'.
Qed.

(** Texts for which termination is argued: small, or without any '<'. *)
Definition tame (s : str) : Prop := small s \/ lts s = 0%nat.

Lemma dedent_tame doc : small doc -> (lts (dedent_heredoc doc) <= lts doc)%nat /\ tame (dedent_heredoc doc).
Proof.
  intros Hs. unfold dedent_heredoc.
  destruct (get_heredoc_indent doc =? 0) eqn:E0; [split; [lia|left; exact Hs]|].
  assert (Hd : doc = firstn (N.to_nat 0) doc ++ doc) by reflexivity.
  assert (Hind : get_heredoc_indent doc <= N.of_nat (length doc) \/ blank_prefix doc).
  { unfold get_heredoc_indent. destruct doc as [|c d]; [left; lia|].
    destruct (indent_dich (c :: d) 0 true) as [H|[H _]]; [|left; lia|right; exact H].
    unfold small in Hs. unfold size_max. lia. }
  destruct Hind as [Hind|(a & b & Hab & Ha & Hb)].
  - destruct (dedent_loop_nowrap doc doc 0 (get_heredoc_indent doc) 0 [] Hs Hind Hd) as [H1 H2];
      try (simpl; lia).
    split; [exact H2|]. left. unfold small in *. lia.
  - assert (H : lts (dedent_loop doc doc 0 (get_heredoc_indent doc) 0 []) = 0%nat).
    { eapply dedent_loop_blank; eauto; simpl; lia. }
    split; [lia|right; exact H].
Qed.

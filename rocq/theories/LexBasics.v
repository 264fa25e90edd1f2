(** * LexBasics: elementary facts about the cursor and the loops of the lexer *)
From Coq Require Import Strings.Ascii Strings.String NArith ZArith Bool Arith List Lia ZifyBool ZifyNat ZifyN.
From Verif Require Import Base Token Spec LexModel.
Import ListNotations.
Open Scope N_scope.

(** ** Outcomes *)

(** [post C m Q]: [m] does not run out of fuel, satisfies [Q] if it returns and
    [C] if it crashes. *)
Definition post {A} (C : reason -> Prop) (m : res A) (Q : A -> Prop) : Prop :=
  match m with
  | Ok a => Q a
  | Crash r => C r
  | NoFuel => False
  end.

Lemma post_bind {A B} C (m : res A) (k : A -> res B) Q :
  post C m (fun a => post C (k a) Q) -> post C (bind m k) Q.
Proof. destruct m; simpl; auto. Qed.

Lemma post_weaken {A} (C C' : reason -> Prop) (m : res A) (Q Q' : A -> Prop) :
  post C m Q -> (forall r, C r -> C' r) -> (forall a, Q a -> Q' a) -> post C' m Q'.
Proof. destruct m; simpl; auto. Qed.

Lemma post_conj {A} C (m : res A) (Q Q' : A -> Prop) :
  post C m Q -> post C m Q' -> post C m (fun a => Q a /\ Q' a).
Proof. destruct m; simpl; auto. Qed.

(** ** Cursor *)

Global Arguments advance : simpl never.
Global Arguments advance_n : simpl nomatch.
Global Arguments current_char : simpl never.
Global Arguments peek : simpl never.
Global Arguments rewind : simpl never.
Global Arguments N.eqb : simpl never.
Global Arguments N.leb : simpl never.
Global Arguments N.ltb : simpl never.
Global Arguments Nat.leb : simpl never.
Global Arguments Nat.ltb : simpl never.
Global Arguments loop_fuel : simpl never.

(** [f'] is [f] with another cursor. *)
Definition frame (f f' : lx) : Prop := f' = set_cur f (l_cur f').

Lemma frame_refl f : frame f f.
Proof. destruct f; reflexivity. Qed.
Lemma frame_trans f g h : frame f g -> frame g h -> frame f h.
Proof. unfold frame. intros H1 H2. rewrite H2, H1. destruct f; reflexivity. Qed.

Lemma advance_frame f : frame f (advance f).
Proof. unfold advance, frame. destruct (current_char f =? ch_nl); destruct f; reflexivity. Qed.

Lemma advance_idx f : l_idx (advance f) = S (l_idx f).
Proof. unfold advance. destruct (current_char f =? ch_nl); reflexivity. Qed.
Lemma advance_size f : l_size (advance f) = l_size f.
Proof. reflexivity. Qed.
Lemma advance_input f : l_input (advance f) = l_input f.
Proof. reflexivity. Qed.
Lemma advance_stop f : l_stop (advance f) = l_stop f.
Proof. reflexivity. Qed.

Lemma advance_n_frame k f : frame f (advance_n k f).
Proof.
  revert f. induction k as [|k IH]; intros f; simpl.
  - apply frame_refl.
  - eapply frame_trans; [apply advance_frame | apply IH].
Qed.
Lemma advance_n_idx k f : l_idx (advance_n k f) = (l_idx f + k)%nat.
Proof.
  revert f. induction k as [|k IH]; intros f; simpl; [lia|].
  rewrite IH, advance_idx. lia.
Qed.
Lemma advance_n_size k f : l_size (advance_n k f) = l_size f.
Proof. revert f; induction k; intros f; simpl; [reflexivity|]. rewrite IHk. apply advance_size. Qed.
Lemma advance_n_input k f : l_input (advance_n k f) = l_input f.
Proof. revert f; induction k; intros f; simpl; [reflexivity|]. rewrite IHk. apply advance_input. Qed.
Lemma advance_n_stop k f : l_stop (advance_n k f) = l_stop f.
Proof. revert f; induction k; intros f; simpl; [reflexivity|]. rewrite IHk. apply advance_stop. Qed.
Lemma advance_n_plus j k f : advance_n k (advance_n j f) = advance_n (j + k) f.
Proof. revert f; induction j; intros f; simpl; [reflexivity|]. apply IHj. Qed.
Lemma advance_1 f : advance f = advance_n 1 f.
Proof. reflexivity. Qed.
Lemma advance_n_S k f : advance (advance_n k f) = advance_n (S k) f.
Proof. rewrite advance_1, advance_n_plus. f_equal. lia. Qed.

(** [f'] is [f] advanced by at least [m] characters. *)
Definition adv (m : nat) (f f' : lx) : Prop := exists k, (m <= k)%nat /\ f' = advance_n k f.

Lemma adv_refl f : adv 0 f f.
Proof. exists 0%nat; auto. Qed.
Lemma adv_trans a b c f g h : adv a f g -> adv b g h -> (c <= a + b)%nat -> adv c f h.
Proof.
  intros (j & Hj & ->) (k & Hk & ->) Hc. exists (j + k)%nat. split; [lia|].
  apply advance_n_plus.
Qed.
Lemma adv_advance f : adv 1 f (advance f).
Proof. exists 1%nat; auto. Qed.
Lemma adv_advance_n k f : adv k f (advance_n k f).
Proof. exists k; auto. Qed.
Lemma adv_le a b f g : adv a f g -> (b <= a)%nat -> adv b f g.
Proof. intros (k & Hk & ->) H. exists k; split; [lia|reflexivity]. Qed.
Lemma adv_if_advance (b : bool) f : adv 0 f (if b then advance f else f).
Proof. destruct b; [apply adv_le with 1%nat; [apply adv_advance|lia] | apply adv_refl]. Qed.

Lemma adv_size m f f' : adv m f f' -> l_size f' = l_size f.
Proof. intros (k & _ & ->). apply advance_n_size. Qed.
Lemma adv_input m f f' : adv m f f' -> l_input f' = l_input f.
Proof. intros (k & _ & ->). apply advance_n_input. Qed.
Lemma adv_idx m f f' : adv m f f' -> (l_idx f + m <= l_idx f')%nat.
Proof. intros (k & H & ->). rewrite advance_n_idx. lia. Qed.
Lemma adv_frame m f f' : adv m f f' -> frame f f'.
Proof. intros (k & _ & ->). apply advance_n_frame. Qed.

(** ** Reads *)

Lemma current_char_nz f : (current_char f =? 0) = false -> (l_idx f < l_size f)%nat.
Proof.
  unfold current_char. destruct (l_size f <=? l_idx f)%nat eqn:E; [discriminate|].
  intros _. apply Nat.leb_gt in E. exact E.
Qed.
Lemma peek_nz f : peek f <> 0 -> (S (l_idx f) < l_size f)%nat.
Proof.
  unfold peek. destruct (l_size f <=? l_idx f + 1)%nat eqn:E; [congruence|].
  intros _. apply Nat.leb_gt in E. lia.
Qed.
Lemma current_char_eq_nz f c : (current_char f =? c) = true -> c <> 0 -> (l_idx f < l_size f)%nat.
Proof.
  intros H Hc. apply current_char_nz. apply N.eqb_eq in H. apply N.eqb_neq. congruence.
Qed.
Lemma current_char_pred_nz (p : N -> bool) f : p (current_char f) = true -> p 0 = false -> (l_idx f < l_size f)%nat.
Proof.
  intros H H0. apply current_char_nz. apply N.eqb_neq. intros E. rewrite E in H. congruence.
Qed.

(** A well-formed lexer: the size is the length of its input. *)
Definition wf (f : lx) : Prop := l_size f = length (l_input f).

Lemma wf_adv m f f' : adv m f f' -> wf f -> wf f'.
Proof. intros H. unfold wf. rewrite (adv_size _ _ _ H), (adv_input _ _ _ H). auto. Qed.

Lemma nth_bytes s i : bytes s -> (i < length s)%nat -> at_ s i < 256.
Proof.
  intros Hb Hi. unfold at_. eapply Forall_forall in Hb; [exact Hb|]. apply nth_In. exact Hi.
Qed.

Lemma current_char_byte f : wf f -> bytes (l_input f) -> current_char f < 256.
Proof.
  intros Hw Hb. unfold current_char. destruct (l_size f <=? l_idx f)%nat eqn:E; [lia|].
  apply Nat.leb_gt in E. apply nth_bytes; [exact Hb|]. unfold wf in Hw. lia.
Qed.
Lemma peek_byte f : wf f -> bytes (l_input f) -> peek f < 256.
Proof.
  intros Hw Hb. unfold peek. destruct (l_size f <=? l_idx f + 1)%nat eqn:E; [lia|].
  apply Nat.leb_gt in E. apply nth_bytes; [exact Hb|]. unfold wf in Hw. lia.
Qed.
Lemma heredoc_char_byte f i : wf f -> bytes (l_input f) -> heredoc_char f i < 256.
Proof.
  intros Hw Hb. unfold heredoc_char. destruct (l_size f <=? i)%nat eqn:E; [lia|].
  apply Nat.leb_gt in E. apply nth_bytes; [exact Hb|]. unfold wf in Hw. lia.
Qed.

Lemma bytes_app a b : bytes a -> bytes b -> bytes (a ++ b).
Proof. intros; apply Forall_app; auto. Qed.
Lemma bytes_one c : c < 256 -> bytes [c].
Proof. intros; constructor; auto. Qed.
Lemma bytes_nil : bytes [].
Proof. constructor. Qed.
Lemma bytes_cons c s : c < 256 -> bytes s -> bytes (c :: s).
Proof. constructor; auto. Qed.
Lemma bytes_firstn n s : bytes s -> bytes (firstn n s).
Proof.
  intros H. apply Forall_forall. intros x Hx. eapply Forall_forall in H; [exact H|].
  rewrite <- (firstn_skipn n s). apply in_or_app. auto.
Qed.
Lemma bytes_skipn n s : bytes s -> bytes (skipn n s).
Proof.
  intros H. apply Forall_forall. intros x Hx. eapply Forall_forall in H; [exact H|].
  rewrite <- (firstn_skipn n s). apply in_or_app. auto.
Qed.
Lemma to_char_byte z : to_char z < 256.
Proof. unfold to_char. pose proof (Z.mod_pos_bound z 256 eq_refl). lia. Qed.
Lemma bytes_s2l s : bytes (s2l s).
Proof.
  induction s; simpl; constructor; [|exact IHs].
  apply N_ascii_bounded.
Qed.
Lemma bytes_cstr s : bytes s -> bytes (cstr s).
Proof.
  induction s as [|c s IH]; simpl; intros H; [constructor|].
  inversion H; subst. destruct (c =? 0); [constructor|]. constructor; [assumption|]. apply IH; assumption.
Qed.

(** ** Suffixes *)

Lemma skipn_add {A} x y (l : list A) : skipn x (skipn y l) = skipn (y + x) l.
Proof.
  revert l. induction y as [|y IH]; intros l; [reflexivity|].
  destruct l; simpl; [apply skipn_nil|]. apply IH.
Qed.
Lemma skipn_cons {A} i (l : list A) d : (i < length l)%nat -> skipn i l = nth i l d :: skipn (S i) l.
Proof.
  revert l. induction i as [|i IH]; intros [|a l] H; simpl in H; try lia; [reflexivity|].
  simpl. rewrite (IH l) by lia. reflexivity.
Qed.

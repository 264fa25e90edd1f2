(** * ParseHoare: a program logic for the parsing functions

    [wp m Q s]: from [s] the function [m] ends; if it returns, [Q] holds; if it
    aborts, it does so at one of the few places listed in [known_abort].  The
    state invariant [inv] says that the tokens still to be read end in the one
    terminal token (Eof or an error token).  No code is modelled here. *)
From Coq Require Import Strings.String NArith ZArith Bool List Lia.
From Coq Require Import ZifyBool ZifyNat ZifyN.
From Verif Require Import Base Token Node ParserBase ParserModel.
Import ListNotations.
Open Scope N_scope.
Open Scope list_scope.
Open Scope monad_scope.

(** ** Tokens *)

(** Tokens after which the lexer stops. *)
Definition terminal (t : ttype) : bool := is_eof t || negb (is_valid t).

Definition has_lit (t : token) : Prop := lit t <> None.

(** Token types whose literal is read without a check. *)
Definition wf_tok (t : token) : Prop :=
  match ty t with
  | T_Invalid | T_BareName | T_Constant | T_OperatorName | T_GlobalVariable | T_ClassVariable
  | T_InstanceVariable | T_String | T_Symbol | T_SymbolKey | T_Bignum => has_lit t
  | T_BackRef => match lit t with Some (_ :: _) => True | _ => False end
  | _ => True
  end.

(** A token vector as the lexer makes it: well-formed tokens, the last one terminal
    and only the last one. *)
Fixpoint stream (l : list token) : Prop :=
  match l with
  | [] => False
  | t :: l' => wf_tok t /\ (if terminal (ty t) then l' = [] else stream l')
  end.

(** The measure of the parser's progress: newlines and semicolons count less
    than other tokens, because the parser puts a newline back in some places. *)
Definition weight1 (t : token) : nat := if is_end_of_line (ty t) then 1%nat else 2%nat.
Fixpoint weight (l : list token) : nat :=
  match l with [] => 0%nat | t :: l' => (weight1 t + weight l')%nat end.
Definition W (s : pstate) : nat := weight (p_rest s).
Definition D (s : pstate) : nat := length (p_depth s).

Definition inv (s : pstate) : Prop :=
  stream (p_rest s) /\
  Forall (fun t => wf_tok t /\ terminal (ty t) = false) (p_prev s) /\
  (1 <= D s)%nat.

(** ** The aborts that can happen *)
Definition known_sites : list string :=
  ["parser.cpp:1543"; "parser.cpp:1555"; "parser.cpp:2186"; "multiple_assignment_node.cpp:32"]%string.
Definition known_abort (c : pcrash) : Prop :=
  match c with PUnreachable site => In site known_sites | _ => False end.

Definition wp {A} (m : M A) (Q : A -> pstate -> Prop) (s : pstate) : Prop :=
  match m s with
  | POk a s' => Q a s'
  | PSyn _ => True
  | PCrash c => known_abort c
  | PNoFuel => False
  end.

Lemma wp_bind : forall A B (m : M A) (k : A -> M B) Q s,
  wp m (fun a s' => wp (k a) Q s') s -> wp (bind m k) Q s.
Proof. intros A B m k Q s H. unfold wp, bind in *. destruct (m s); exact H. Qed.

Lemma wp_ret : forall A (a : A) (Q : A -> pstate -> Prop) s, Q a s -> wp (ret a) Q s.
Proof. intros A a Q s H. exact H. Qed.

Lemma wp_mono : forall A (m : M A) (P Q : A -> pstate -> Prop) s,
  wp m P s -> (forall a s', P a s' -> Q a s') -> wp m Q s.
Proof. intros A m P Q s H HQ. unfold wp in *. destruct (m s); auto. Qed.

(** A specification of [m], found by instance search. *)
Class Spec {A} (m : M A) (P : pstate -> Prop) (Q : pstate -> A -> pstate -> Prop) : Prop :=
  spec_ok : forall s, P s -> wp m (Q s) s.

Lemma wp_use : forall A (m : M A) P Q0, Spec m P Q0 ->
  forall (Q : A -> pstate -> Prop) s, P s -> (forall a s', Q0 s a s' -> Q a s') -> wp m Q s.
Proof. intros A m P Q0 H Q s HP HQ. eapply wp_mono; [exact (H s HP)|exact HQ]. Qed.

(** The rule for loops. *)
Lemma wp_loop : forall A B (body : A -> M (A + B)) (Inv : A -> pstate -> Prop)
    (mu : A -> pstate -> nat) (Q : B -> pstate -> Prop),
  (forall a s, Inv a s ->
     wp (body a)
       (fun r s' => match r with
                    | inl a' => Inv a' s' /\ (mu a' s' < mu a s)%nat
                    | inr b => Q b s'
                    end) s) ->
  forall fuel a s, Inv a s -> (mu a s < fuel)%nat -> wp (mloop fuel body a) Q s.
Proof.
  intros A B body Inv mu Q Hb fuel; induction fuel as [|n IH]; intros a s HI Hm; [lia|].
  cbn [mloop]. apply wp_bind. eapply wp_mono; [exact (Hb a s HI)|].
  intros [a'|b] s' H; [|apply wp_ret; exact H].
  destruct H as [H1 H2]. apply IH; [exact H1|lia].
Qed.

(** ** What a function does to the state *)
Definition le_ext (s s' : pstate) : Prop :=
  inv s' /\ (W s' <= W s)%nat /\ p_precs s' = p_precs s /\ (D s <= D s')%nat.
Definition lt_ext (s s' : pstate) : Prop :=
  inv s' /\ (W s' < W s)%nat /\ p_precs s' = p_precs s /\ (D s <= D s')%nat.

Lemma le_ext_refl : forall s, inv s -> le_ext s s.
Proof. intros s H. unfold le_ext. repeat split; auto; apply H. Qed.

(** ** Facts about tokens and streams *)
Lemma ttype_eqb_true : forall a b, ttype_eqb a b = true -> a = b.
Proof. intros a b H. destruct a, b; try discriminate H; reflexivity. Qed.
Lemma ttype_eqb_refl : forall a, ttype_eqb a a = true.
Proof. destruct a; reflexivity. Qed.

Lemma weight1_pos : forall t, (1 <= weight1 t <= 2)%nat.
Proof. intros t. unfold weight1. destruct (is_end_of_line (ty t)); lia. Qed.

Lemma stream_hd : forall l, stream l -> wf_tok (hd no_token l).
Proof. intros [|t l] H; [destruct H|exact (proj1 H)]. Qed.

Lemma inv_current : forall s, inv s -> wf_tok (current s).
Proof. intros s [H _]. apply stream_hd. exact H. Qed.

Lemma inv_current_invalid : forall s, inv s -> ty (current s) = T_Invalid -> lit (current s) <> None.
Proof. intros s H E. pose proof (inv_current s H) as Hw. unfold wf_tok in Hw. rewrite E in Hw. exact Hw. Qed.

Lemma inv_D : forall s, inv s -> (1 <= D s)%nat.
Proof. intros s H. apply H. Qed.

Lemma inv_W : forall s, inv s -> (1 <= W s)%nat.
Proof.
  intros s [H _]. unfold W. destruct (p_rest s) as [|t l]; [destruct H|].
  cbn [weight]. pose proof (weight1_pos t). lia.
Qed.

(** ** Primitive operations *)
Lemma wp_cur : forall (Q : token -> pstate -> Prop) s, Q (current s) s -> wp cur Q s.
Proof. intros Q s H. exact H. Qed.
Lemma wp_cty : forall (Q : ttype -> pstate -> Prop) s, Q (ty (current s)) s -> wp cty Q s.
Proof. intros Q s H. exact H. Qed.
Lemma wp_cur_is : forall x (Q : bool -> pstate -> Prop) s,
  Q (ttype_eqb (ty (current s)) x) s -> wp (cur_is x) Q s.
Proof. intros x Q s H. exact H. Qed.
Lemma wp_peek : forall (Q : token -> pstate -> Prop) s, Q (nth 1 (p_rest s) no_token) s -> wp peek Q s.
Proof. intros Q s H. exact H. Qed.
Lemma wp_prev : forall (Q : token -> pstate -> Prop) s, Q (hd no_token (p_prev s)) s -> wp prev Q s.
Proof. intros Q s H. exact H. Qed.
Lemma wp_precs : forall (Q : list N -> pstate -> Prop) s, Q (p_precs s) s -> wp precs Q s.
Proof. intros Q s H. exact H. Qed.
Lemma wp_get_locals : forall (Q : list str -> pstate -> Prop) s, Q (p_locals s) s -> wp get_locals Q s.
Proof. intros Q s H. exact H. Qed.
Lemma wp_get_file : forall (Q : str -> pstate -> Prop) s, Q (p_file s) s -> wp get_file Q s.
Proof. intros Q s H. exact H. Qed.
Lemma wp_is_local : forall x (Q : bool -> pstate -> Prop) s, (forall b, Q b s) -> wp (is_local x) Q s.
Proof. intros x Q s H. unfold is_local. apply wp_bind, wp_get_locals, wp_ret, H. Qed.

(** A change of the locals only. *)
Definition same_tokens (s s' : pstate) : Prop :=
  p_rest s' = p_rest s /\ p_prev s' = p_prev s /\ p_precs s' = p_precs s /\ p_depth s' = p_depth s.

Lemma same_tokens_inv : forall s s', same_tokens s s' -> inv s ->
  inv s' /\ W s' = W s /\ p_precs s' = p_precs s /\ D s' = D s /\ current s' = current s /\
  p_rest s' = p_rest s.
Proof.
  intros s s' (H1 & H2 & H3 & H4) H. unfold inv, W, D, current in *.
  rewrite H1, H2, H3, H4. repeat split; auto; apply H.
Qed.

Lemma wp_set_locals : forall l (Q : unit -> pstate -> Prop) s,
  (forall s', same_tokens s s' -> Q tt s') -> wp (set_locals l) Q s.
Proof. intros l Q s H. apply H. repeat split. Qed.

Lemma wp_add_local : forall x (Q : unit -> pstate -> Prop) s,
  (forall s', same_tokens s s' -> Q tt s') -> wp (add_local x) Q s.
Proof. intros x Q s H. unfold add_local. apply wp_bind, wp_get_locals, wp_set_locals, H. Qed.

Lemma wp_add_local_exact : forall x (Q : unit -> pstate -> Prop) s,
  (forall s', same_tokens s s' -> Q tt s') -> wp (add_local_exact x) Q s.
Proof. intros x Q s H. unfold add_local_exact. apply wp_bind, wp_get_locals, wp_set_locals, H. Qed.

Lemma wp_advance : forall (Q : unit -> pstate -> Prop) s,
  inv s -> terminal (ty (current s)) = false ->
  (forall s', inv s' -> (W s' + weight1 (current s) = W s)%nat -> p_precs s' = p_precs s -> D s' = D s ->
     current s' = nth 1 (p_rest s) no_token -> p_prev s' = current s :: p_prev s -> Q tt s') ->
  wp advance Q s.
Proof.
  intros Q s (Hs & Hp & Hd) Ht HQ. unfold wp, advance.
  destruct (p_rest s) as [|t l] eqn:E; [destruct Hs|].
  unfold current in *. rewrite E in *. cbn [hd] in *.
  destruct Hs as [Hw Hs]. rewrite Ht in Hs.
  apply HQ; unfold inv, W, D; cbn [p_rest p_prev p_precs p_depth]; rewrite ?E; auto.
  - apply Nat.add_comm.
  - destruct l; reflexivity.
Qed.

Lemma wp_rewind : forall t before (Q : unit -> pstate -> Prop) s,
  inv s -> p_prev s = t :: before ->
  (forall s', inv s' -> (W s' = W s + weight1 t)%nat -> p_precs s' = p_precs s -> D s' = D s ->
     current s' = t -> Q tt s') ->
  wp rewind Q s.
Proof.
  intros t before Q s (Hs & Hp & Hd) E HQ. unfold wp, rewind. rewrite E in *.
  inversion_clear Hp as [|? ? [Hw Ht] Hp'].
  apply HQ; unfold inv, W, D; cbn [p_rest p_prev p_precs p_depth weight]; auto.
  - repeat split; auto. cbn [stream]. rewrite Ht. auto.
  - lia.
Qed.

Lemma wp_insert : forall t (Q : unit -> pstate -> Prop) s,
  inv s -> wf_tok t -> terminal (ty t) = false ->
  (forall s', inv s' -> (W s' = W s + weight1 t)%nat -> p_precs s' = p_precs s -> D s' = D s -> Q tt s') ->
  wp (insert_token t) Q s.
Proof.
  intros t Q s (Hs & Hp & Hd) Hw Ht HQ. unfold wp, insert_token.
  apply HQ; unfold inv, W, D; cbn [p_rest p_prev p_precs p_depth weight]; auto.
  - repeat split; auto. cbn [stream]. rewrite Ht. auto.
  - lia.
Qed.

Lemma wp_push_prec : forall p (Q : unit -> pstate -> Prop) s,
  inv s ->
  (forall s', inv s' -> W s' = W s -> p_precs s' = p :: p_precs s -> D s' = D s ->
     current s' = current s -> p_rest s' = p_rest s -> Q tt s') ->
  wp (push_prec p) Q s.
Proof. intros p Q s H HQ. apply HQ; auto. Qed.

Lemma wp_pop_prec : forall p l (Q : unit -> pstate -> Prop) s,
  inv s -> p_precs s = p :: l ->
  (forall s', inv s' -> W s' = W s -> p_precs s' = l -> D s' = D s ->
     current s' = current s -> p_rest s' = p_rest s -> Q tt s') ->
  wp pop_prec Q s.
Proof. intros p l Q s H E HQ. unfold wp, pop_prec. rewrite E. apply HQ; auto. Qed.

Lemma wp_push_depth : forall n (Q : unit -> pstate -> Prop) s,
  inv s ->
  (forall s', inv s' -> W s' = W s -> p_precs s' = p_precs s -> D s' = S (D s) ->
     current s' = current s -> p_rest s' = p_rest s -> Q tt s') ->
  wp (push_depth n) Q s.
Proof.
  intros n Q s H HQ. apply HQ; auto. destruct H as (H1 & H2 & H3). repeat split; auto.
  unfold D. cbn. lia.
Qed.

Lemma wp_pop_depth : forall (Q : unit -> pstate -> Prop) s,
  inv s -> (2 <= D s)%nat ->
  (forall s', inv s' -> W s' = W s -> p_precs s' = p_precs s -> S (D s') = D s ->
     current s' = current s -> p_rest s' = p_rest s -> Q tt s') ->
  wp pop_depth Q s.
Proof.
  intros Q s (H1 & H2 & H3) Hd HQ. unfold wp, pop_depth, bind, depth_stack, D in *.
  destruct (p_depth s) as [|x l] eqn:E; cbn in *; [lia|].
  apply HQ; auto. repeat split; auto. unfold D; cbn. lia.
Qed.

Lemma wp_incr_depth : forall (Q : unit -> pstate -> Prop) s,
  inv s ->
  (forall s', inv s' -> W s' = W s -> p_precs s' = p_precs s -> D s' = D s ->
     current s' = current s -> p_rest s' = p_rest s -> Q tt s') ->
  wp incr_depth Q s.
Proof.
  intros Q s (H1 & H2 & H3) HQ. unfold wp, incr_depth, bind, depth_stack, D in *.
  destruct (p_depth s) as [|x l] eqn:E; cbn in *; [lia|].
  apply HQ; auto. repeat split; auto.
Qed.

Lemma wp_decr_depth : forall (Q : unit -> pstate -> Prop) s,
  inv s ->
  (forall s', inv s' -> W s' = W s -> p_precs s' = p_precs s -> D s' = D s ->
     current s' = current s -> p_rest s' = p_rest s -> Q tt s') ->
  wp decr_depth Q s.
Proof.
  intros Q s (H1 & H2 & H3) HQ. unfold wp, decr_depth, bind, depth_stack, D in *.
  destruct (p_depth s) as [|x l] eqn:E; cbn in *; [lia|].
  apply HQ; auto. repeat split; auto.
Qed.

Lemma wp_throw : forall A e (Q : A -> pstate -> Prop) s, wp (throw e) Q s.
Proof. intros. exact I. Qed.

Definition reportable (t : token) : Prop := ty t = T_Invalid -> lit t <> None.

Lemma wf_reportable : forall t, wf_tok t -> reportable t.
Proof. intros t H E. unfold wf_tok in H. rewrite E in H. exact H. Qed.

Lemma wp_throw_unexpected : forall A t e (Q : A -> pstate -> Prop) s,
  wf_tok t -> wp (throw_unexpected t e) Q s.
Proof.
  intros A t e Q s H. apply wf_reportable in H. unfold reportable in H. unfold wp, throw_unexpected.
  destruct (ty t); try exact I. destruct (lit t); [exact I|]. destruct H; reflexivity.
Qed.
Lemma wp_throw_error : forall A t e (Q : A -> pstate -> Prop) s,
  wf_tok t -> wp (throw_error t e) Q s.
Proof.
  intros A t e Q s H. apply wf_reportable in H. unfold reportable in H. unfold wp, throw_error.
  destruct (ty t); try exact I. destruct (lit t); [exact I|]. destruct H; reflexivity.
Qed.
Lemma wp_unexpected : forall A e (Q : A -> pstate -> Prop) s, inv s -> wp (unexpected e) Q s.
Proof.
  intros A e Q s H. unfold unexpected. apply wp_bind, wp_cur, wp_throw_unexpected, inv_current, H.
Qed.

Lemma wp_literal_string : forall t (Q : str -> pstate -> Prop) s,
  has_lit t -> (forall l, lit t = Some l -> Q l s) -> wp (literal_string t) Q s.
Proof.
  intros t Q s H HQ. unfold has_lit in H. unfold literal_string, wp.
  destruct (lit t) as [l|]; [apply HQ; reflexivity|]. destruct H; reflexivity.
Qed.

Lemma wp_type_name : forall t (Q : str -> pstate -> Prop) s,
  is_valid (ty t) = true -> (forall l, Q l s) -> wp (type_name t) Q s.
Proof.
  intros t Q s H HQ. unfold is_valid in H. unfold type_name, wp.
  destruct (type_value (ty t)); [apply HQ|discriminate].
Qed.

Lemma wp_expect : forall x e (Q : unit -> pstate -> Prop) s,
  inv s -> (ty (current s) = x -> Q tt s) -> wp (expect x e) Q s.
Proof.
  intros x e Q s H HQ. unfold expect. apply wp_bind, wp_cty.
  destruct (ttype_eqb (ty (current s)) x) eqn:E; [|apply wp_unexpected; exact H].
  apply HQ. apply ttype_eqb_true. exact E.
Qed.

Lemma wp_validate : forall (Q : unit -> pstate -> Prop) s,
  inv s -> (is_valid (ty (current s)) = true -> Q tt s) -> wp validate_current_token Q s.
Proof.
  intros Q s H HQ. unfold validate_current_token. apply wp_bind, wp_cur.
  unfold throw_unterminated_thing, is_valid in *.
  destruct (ty (current s)) eqn:E; cbn in *; rewrite ?E; cbn; auto; exact I || (apply HQ; reflexivity).
Qed.

Lemma skip_eol_spec : forall rest before,
  stream rest -> Forall (fun t => wf_tok t /\ terminal (ty t) = false) before ->
  let r := skip_eol before rest in
  stream (snd r) /\ Forall (fun t => wf_tok t /\ terminal (ty t) = false) (fst r) /\
  (weight (snd r) <= weight rest)%nat /\ is_end_of_line (ty (hd no_token (snd r))) = false /\
  (is_end_of_line (ty (hd no_token rest)) = false -> snd r = rest) /\
  (is_end_of_line (ty (hd no_token rest)) = true -> (weight (snd r) < weight rest)%nat).
Proof.
  induction rest as [|t rest IH]; intros before Hs Hb; [destruct Hs|].
  destruct Hs as [Hw Hs].
  cbn [skip_eol hd]. destruct (is_end_of_line (ty t)) eqn:E.
  - assert (Ht : terminal (ty t) = false) by (destruct (ty t); try discriminate E; reflexivity).
    rewrite Ht in Hs.
    destruct (IH (t :: before) Hs (Forall_cons _ (conj Hw Ht) Hb)) as (H1 & H2 & H3 & H4 & _ & _).
    cbn [weight]. pose proof (weight1_pos t) as Hp. unfold weight1 in *. rewrite E in *.
    repeat split; auto; try discriminate; lia.
  - cbn [snd fst hd]. repeat split; auto. discriminate.
Qed.

Lemma wp_skip_newlines : forall (Q : unit -> pstate -> Prop) s,
  inv s ->
  (forall s', inv s' -> (W s' <= W s)%nat -> p_precs s' = p_precs s -> D s' = D s ->
     is_end_of_line (ty (current s')) = false ->
     (is_end_of_line (ty (current s)) = false -> current s' = current s /\ p_rest s' = p_rest s) -> Q tt s') ->
  wp skip_newlines Q s.
Proof.
  intros Q s (H1 & H2 & H3) HQ. unfold wp, skip_newlines.
  pose proof (skip_eol_spec (p_rest s) (p_prev s) H1 H2) as (E1 & E2 & E3 & E4 & E5 & _).
  destruct (skip_eol (p_prev s) (p_rest s)) as [before rest]. cbn [fst snd] in *.
  apply HQ; unfold inv, W, D, current; cbn [p_rest p_prev p_precs p_depth]; auto.
  intros E. specialize (E5 E). rewrite E5. auto.
Qed.

Lemma wp_next_expression : forall (Q : unit -> pstate -> Prop) s,
  inv s ->
  (forall s', inv s' -> (W s' <= W s)%nat -> p_precs s' = p_precs s -> D s' = D s -> Q tt s') ->
  wp next_expression Q s.
Proof.
  intros Q s H HQ. unfold next_expression. apply wp_bind, wp_cty.
  destruct (negb (is_end_of_expression (ty (current s)))); [apply wp_unexpected; exact H|].
  apply wp_skip_newlines; auto.
Qed.

Lemma wp_higher_precedence : forall t n p ia (Q : bool -> pstate -> Prop) s,
  inv s -> (forall b, Q b s) -> wp (higher_precedence t n p ia) Q s.
Proof.
  intros t n p ia Q s (_ & _ & Hd) HQ. unfold higher_precedence.
  destruct (node_is_symbol_key n); [apply HQ|].
  destruct (_ =? ITER_BLOCK).
  - destruct ia; try apply HQ. unfold wp, bind, depth_stack, D in *.
    destruct (p_depth s); cbn in *; [lia|apply HQ].
  - destruct (_ =? ITER_CURLY); apply HQ.
Qed.

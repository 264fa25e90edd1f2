(** * PropLexer: whole-run properties of the lexer (C01, C05, C06, C07, C08) *)
From Coq Require Import Strings.String NArith ZArith Bool List Lia.
From Verif Require Import Base Token Spec LexModel LexTree LexFacts.
Import ListNotations.
Open Scope N_scope.
Open Scope list_scope.

(** A source with everything nested: a heredoc whose body has an interpolation
    that contains a word array with an interpolation. *)
Definition ex_nested : str := s2l "x = <<~A
  a #{ %W[b #{ /c#{d}/i } e].join } f
  A
# about y
def y; end"%string.
Lemma ex_nested_hyps : bytes ex_nested /\ small ex_nested.
Proof. split; [repeat constructor|vm_compute; reflexivity]. Qed.

(** ** C01: tokens() terminates *)

(** With enough fuel the outcome is not [NoFuel] and no longer depends on fuel. *)
Theorem C01_tokens_terminates : forall s, bytes s -> small s ->
  exists fuel r, r <> NoFuel /\ forall fuel', (fuel <= fuel')%nat -> tokens fuel' s = r.
Proof. exact tokens_terminates. Qed.

Example C01_example : match tokens 100 ex_nested with Ok ts => length ts = 31%nat | _ => False end.
Proof. vm_compute. reflexivity. Qed.

(** ** C05: docs only on class, module and def *)

Theorem C05_doc_only_on_definitions : forall s fuel ts, bytes s -> small s -> tokens fuel s = Ok ts ->
  forall t, In t ts -> doc t <> None ->
    ty t = T_ClassKeyword \/ ty t = T_ModuleKeyword \/ ty t = T_DefKeyword.
Proof. exact tokens_doc. Qed.

Example C05_example :
  match tokens 100 ex_nested with
  | Ok ts => map (fun t => (ty t, doc t)) (filter (fun t => match doc t with Some _ => true | None => false end) ts)
             = [(T_DefKeyword, Some (s2l "# about y
"%string))]
  | _ => False
  end.
Proof. vm_compute. reflexivity. Qed.

(** ** C06: no read outside the input *)

(** In every state of a run every lexer of the chain knows the length of its input,
    and reads at and after its cursor never give the poison value [oob]. *)
Theorem C06_reads_in_bounds : forall s l g, bytes s -> small s -> reach s l -> In g (chain l) ->
  l_size g = length (l_input g) /\
  forall k, current_char (advance_n k g) < 256 /\ peek (advance_n k g) < 256.
Proof. exact reads_in_bounds. Qed.

(** No literal of a returned token contains the poison value. *)
Theorem C06_literals_are_bytes : forall s fuel ts, bytes s -> small s -> tokens fuel s = Ok ts ->
  forall t, In t ts -> (forall x, lit t = Some x -> bytes x) /\ bytes (dbl t).
Proof.
  intros s fuel ts Hb Hs Ht t Hin. destruct (tokens_bytes s fuel ts Hb Hs Ht t Hin) as [H1 H2].
  split; [|exact H2]. intros x Hx. rewrite Hx in H1. exact H1.
Qed.

(** The chain really gets deep: after 14 tokens of [ex_nested] the run is inside the
    interpolation of a regexp in an interpolation of a word array in an
    interpolation of a heredoc. *)
Fixpoint run (n : nat) (l : lexer) : option lexer :=
  match n with
  | O => Some l
  | S n => match next_token l with Ok (_, l') => run n l' | _ => None end
  end.
Lemma run_reach s n l : run n (Lexer (new_lx s) KBase None) = Some l -> reach s l.
Proof.
  assert (H : forall n a, reach s a -> run n a = Some l -> reach s l).
  { clear n. induction n as [|n IH]; intros a Ha H; cbn [run] in H; [congruence|].
    destruct (next_token a) as [[t a']| |] eqn:E; try discriminate. eapply IH; [|exact H]. eapply reach_step; eauto. }
  apply H. constructor.
Qed.
Example C06_example : exists l, reach ex_nested l /\
  map (fun g => c_idx (l_cur g)) (chain l) = [8; 4; 8; 12; 14; 17; 18]%nat.
Proof.
  destruct (run 14 (Lexer (new_lx ex_nested) KBase None)) as [l|] eqn:E.
  - exists l. split; [apply (run_reach _ 14); exact E|].
    assert (H : option_map (fun l => map (fun g => c_idx (l_cur g)) (chain l)) (run 14 (Lexer (new_lx ex_nested) KBase None))
             = Some [8; 4; 8; 12; 14; 17; 18]%nat) by (vm_compute; reflexivity).
    rewrite E in H. cbn [option_map] in H. congruence.
  - vm_compute in E. discriminate.
Qed.

(** ** C07: positions *)

(** In every state of a run every lexer that reads the source itself has the line
    and column of its offset. *)
Theorem C07_cursor_positions : forall s l g, bytes s -> small s -> reach s l -> In g (chain l) -> l_input g = s ->
  c_line (l_cur g) = line_of s (c_idx (l_cur g)) /\ c_col (l_cur g) = col_of s (c_idx (l_cur g)).
Proof. exact reach_positions. Qed.

(** A token produced while no heredoc body is being read has the position of some
    offset of the source. *)
Theorem C07_token_positions : forall s l t l', bytes s -> small s -> reach s l -> next_token l = Ok (t, l') ->
  in_heredoc l = false -> tok_at s t.
Proof. exact reach_token_pos. Qed.

(** So in a source without << all returned tokens do. *)
Theorem C07_vector_positions : forall s fuel ts, bytes s -> small s -> ~ contains (s2l "<<"%string) s ->
  tokens fuel s = Ok ts -> forall t, In t ts -> tok_at s t.
Proof. exact tokens_positions. Qed.

Definition ex_lines : str := s2l "a = ""x
#{y +
  z}"" # c
 b"%string.
Example C07_example :
  bytes ex_lines /\ small ex_lines /\
  match tokens 100 ex_lines with
  | Ok ts => map (fun t => (tk_line t, tk_col t)) ts =
             [(0, 0); (0, 2); (0, 4); (0, 5); (1, 2); (1, 2); (1, 4); (2, 2); (2, 3); (2, 5); (2, 9); (3, 1); (3, 2)]%nat
  | _ => False
  end /\ line_of ex_lines 17 = 2%nat /\ col_of ex_lines 17 = 4%nat.
Proof. split; [repeat constructor|]. split; [vm_compute; reflexivity|]. vm_compute. auto. Qed.
Example C07_example_no_heredoc : ~ contains (s2l "<<"%string) ex_lines.
Proof.
  intros (l & r & H). assert (Hin : In "<"%ch ex_lines) by (rewrite H; apply in_or_app; right; left; reflexivity).
  revert Hin. vm_compute. intuition discriminate.
Qed.

(** ** C08: when tokens() aborts *)

(** The only abort is a \u{...} escape with a code point of at least 0x200000, and
    the only undefined behaviour the signed overflow in a numbered reference. *)
Theorem C08_crash_causes : forall s fuel r, bytes s -> small s -> tokens fuel s = Crash r ->
  r = Unreachable /\ cp_evidence s \/ r = SignedOverflow /\ nth_evidence s.
Proof.
  intros s fuel r Hb Hs H. apply tokens_crash in H; try assumption.
  destruct r; cbn in H; try contradiction; auto.
Qed.

(** Hence sources without "u{" and without "$" followed by a digit never crash. *)
Theorem C08_no_crash : forall s fuel r, bytes s -> small s ->
  ~ contains (s2l "u{"%string) s -> (forall d, isdigit d = true -> ~ contains ["$"%ch; d] s) ->
  tokens fuel s <> Crash r.
Proof.
  intros s fuel r Hb Hs Hu Hd H. apply C08_crash_causes in H; try assumption.
  destruct H as [[_ (mid & ds & (a & b & Hc) & _)]|[_ (ds & (a & b & Hc) & Hf & Hv)]].
  - apply Hu. exists a, ((mid ++ ds) ++ b). exact Hc.
  - destruct ds as [|d ds]; [vm_compute in Hv; exact (Hv eq_refl)|].
    apply (Hd d); [inversion Hf; assumption|]. exists a, (ds ++ b). exact Hc.
Qed.

(** The unconditional claim is false. *)
Theorem C08_never_aborts_refuted :
  ~ (forall s fuel, bytes s -> small s -> forall r, tokens fuel s <> Crash r).
Proof.
  intros H. apply (H (s2l """\u{ffffff}"""%string) 10%nat) with (r := Unreachable); [repeat constructor| |]; vm_compute; reflexivity.
Qed.
Theorem C08_no_overflow_refuted :
  ~ (forall s fuel, bytes s -> small s -> tokens fuel s <> Crash SignedOverflow).
Proof.
  intros H. apply (H (s2l "$99999999999999999999"%string) 10%nat); [repeat constructor| |]; vm_compute; reflexivity.
Qed.

Print Assumptions C01_tokens_terminates.
Print Assumptions C05_doc_only_on_definitions.
Print Assumptions C06_reads_in_bounds.
Print Assumptions C06_literals_are_bytes.
Print Assumptions C07_cursor_positions.
Print Assumptions C07_token_positions.
Print Assumptions C07_vector_positions.
Print Assumptions C08_crash_causes.
Print Assumptions C08_no_crash.
Print Assumptions C08_never_aborts_refuted.
Print Assumptions C08_no_overflow_refuted.

(** * ParseWhole: the parser on a whole source *)
From Coq Require Import Strings.String NArith ZArith Bool Arith List Lia.
From Verif Require Import Base Token Spec LexModel LexTree LexLits Node ParserBase ParserModel
  ParseHoare ParseNodes ParseTac ParseSafeH ParseTransform ParseTokens Sexp.
Import ListNotations.
Open Scope N_scope.
Open Scope list_scope.

Lemma weight_le l : (weight l <= 2 * length l)%nat.
Proof. induction l as [|t l IH]; [apply le_n|]. cbn [weight length]. unfold weight1. destruct (is_end_of_line _); lia. Qed.

Lemma initial_inv file toks : stream toks -> inv (initial_state file toks).
Proof. intros H. split; [exact H|]. split; [constructor|cbn; lia]. Qed.

Lemma parse_tokens_wp file toks : stream toks ->
  wp (tree (parse_fuel toks)) (fun n s => le_ext (initial_state file toks) s /\ expr_node n) (initial_state file toks).
Proof.
  intros H. pose proof (tree_ok (parse_fuel toks)) as S.
  eapply wp_use; [exact S| |].
  - split; [apply initial_inv, H|]. unfold W, parse_fuel. cbn [initial_state p_rest].
    pose proof (weight_le toks). lia.
  - intros a s K. exact K.
Qed.

Theorem parse_tokens_terminates file toks : stream toks -> parse_tokens file toks <> PNoFuel.
Proof.
  intros H E. pose proof (parse_tokens_wp file toks H) as K. unfold wp in K. unfold parse_tokens in E.
  rewrite E in K. exact K.
Qed.
Theorem parse_tokens_crash file toks c : stream toks -> parse_tokens file toks = PCrash c -> known_abort c.
Proof.
  intros H E. pose proof (parse_tokens_wp file toks H) as K. unfold wp in K. unfold parse_tokens in E.
  rewrite E in K. exact K.
Qed.
Theorem parse_tokens_done file toks n s : stream toks -> parse_tokens file toks = POk n s ->
  le_ext (initial_state file toks) s /\ expr_node n.
Proof.
  intros H E. pose proof (parse_tokens_wp file toks H) as K. unfold wp in K. unfold parse_tokens in E.
  rewrite E in K. exact K.
Qed.

Theorem parse_terminates : forall file s, bytes s -> small s ->
  exists fuel r, r <> OutOfFuel /\ forall fuel', (fuel <= fuel')%nat -> parse fuel' file s = r.
Proof.
  intros file s Hb Hs. destruct (tokens_terminates s Hb Hs) as (fuel & r & Hr & Hf).
  exists fuel, (parse fuel file s). split.
  - unfold parse. rewrite (Hf fuel (le_n _)). destruct r as [ts| |]; [|discriminate|congruence].
    pose proof (parse_tokens_terminates file ts (tokens_stream _ _ _ (Hf fuel (le_n _)))) as K.
    destruct (parse_tokens file ts) as [n s'|e|c|]; try discriminate; [|congruence].
    destruct (node_sexp n); discriminate.
  - intros fuel' H. unfold parse. rewrite (Hf fuel' H), (Hf fuel (le_n _)). reflexivity.
Qed.

Theorem parse_parser_crash : forall fuel file s c, parse fuel file s = ParserCrash c -> known_abort c.
Proof.
  intros fuel file s c H. unfold parse in H. destruct (tokens fuel s) as [ts| |] eqn:E; try discriminate.
  pose proof (parse_tokens_crash file ts) as K.
  destruct (parse_tokens file ts) as [n s'|e|c'|]; try discriminate; [destruct (node_sexp n); discriminate|].
  injection H as <-. apply K; [eapply tokens_stream, E|reflexivity].
Qed.
Theorem parse_lexer_crash : forall fuel file s r, parse fuel file s = LexerCrash r -> tokens fuel s = Crash r.
Proof.
  intros fuel file s r H. unfold parse in H. destruct (tokens fuel s) as [ts| |] eqn:E; try discriminate; [|congruence].
  destruct (parse_tokens file ts) as [n s'|e|c'|]; try discriminate. destruct (node_sexp n); discriminate.
Qed.
Theorem parse_transform_crash : forall fuel file s r, parse fuel file s = TransformCrash r ->
  exists ts n s', tokens fuel s = Ok ts /\ parse_tokens file ts = POk n s' /\
    exists d, below d n /\ bad_accessor d = true.
Proof.
  intros fuel file s r H. unfold parse in H. destruct (tokens fuel s) as [ts| |] eqn:E; try discriminate.
  destruct (parse_tokens file ts) as [n s'|e|c'|] eqn:P; try discriminate.
  destruct (node_sexp n) eqn:N; [discriminate|]. exists ts, n, s'. repeat split; auto.
  eapply node_sexp_crash; [|exact N].
  eapply parse_tokens_done in P; [apply P|eapply tokens_stream, E].
Qed.

(** ** Tokens *)
Theorem parse_tokens_all file toks n s : stream toks -> parse_tokens file toks = POk n s ->
  exists e, p_rest s = [e] /\ ty e = T_Eof /\ solid (rev (p_prev s) ++ [e]) = solid toks.
Proof.
  intros H E. destruct (parse_tokens_done _ _ _ _ H E) as [((Hs & _) & _) _].
  pose proof (tree_stops _ _ _ _ E) as Z. pose proof (tree_str (solid toks) (parse_fuel toks)) as K.
  specialize (K (initial_state file toks) eq_refl). unfold parse_tokens in E. rewrite E in K.
  unfold ghost in K. unfold current in Z. destruct (p_rest s) as [|e l]; [destruct Hs|].
  cbn [hd] in Z. destruct Hs as [_ Hs]. unfold terminal in Hs. rewrite Z in Hs. cbn [orb] in Hs. subst l.
  exists e. repeat split; auto. destruct (ty e); try discriminate; reflexivity.
Qed.

Theorem parse_tokens_cause file toks c : parse_tokens file toks = PCrash c -> cause c toks.
Proof.
  intros E. pose proof (tree_str (solid toks) (parse_fuel toks) (initial_state file toks) eq_refl) as K.
  unfold parse_tokens in E. rewrite E in K. destruct K as (K1 & K2 & K3).
  assert (S : forall p, has p (solid toks) -> has p toks).
  { intros p (t & Ht & Hp). exists t. split; [|exact Hp]. unfold solid in Ht. apply filter_In in Ht. apply Ht. }
  repeat split; auto.
Qed.

Theorem parse_abort : forall fuel file s c, parse fuel file s = ParserCrash c ->
  exists ts, tokens fuel s = Ok ts /\
   (c = PUnreachable "parser.cpp:1543" /\ has starts_interpolation ts \/
    c = PUnreachable "parser.cpp:1555" /\ has starts_interpolation ts \/
    c = PUnreachable "parser.cpp:2186" /\ has starts_symbol_array ts \/
    c = PUnreachable "multiple_assignment_node.cpp:32").
Proof.
  intros fuel file s c H. pose proof (parse_parser_crash _ _ _ _ H) as K. unfold parse in H.
  destruct (tokens fuel s) as [ts| |] eqn:E; try discriminate. exists ts. split; [reflexivity|].
  destruct (parse_tokens file ts) as [n s'|e|c'|] eqn:P; try discriminate; [destruct (node_sexp n); discriminate|].
  injection H as <-. apply parse_tokens_cause in P. destruct P as (P1 & P2 & P3).
  destruct c' as [site| | | |]; cbn in K; try contradiction.
  destruct K as [<-|[<-|[<-|[<-|[]]]]]; auto 6.
Qed.

Theorem parse_expression_precs : forall n p ia s r s', inv s -> (W s < n)%nat ->
  parse_expression n p ia s = POk r s' ->
  p_precs s' = p_precs s /\ (length (p_depth s) <= length (p_depth s'))%nat.
Proof.
  intros n p ia s r s' Hi Hw E. pose proof (parse_expression_ok n p ia s (conj Hi Hw)) as K. unfold wp in K. rewrite E in K.
  destruct K as [(K1 & K2 & K3 & K4) _]. auto.
Qed.

Theorem parse_final_state : forall file fuel s ts n s', tokens fuel s = Ok ts -> parse_tokens file ts = POk n s' ->
  p_precs s' = [] /\ p_depth s' <> [].
Proof.
  intros file fuel s ts n s' E P. destruct (parse_tokens_done file ts n s' (tokens_stream _ _ _ E) P) as [(K1 & _ & K3 & K4) _].
  split; [exact K3|]. cbn in K4. unfold D in K4. destruct (p_depth s'); [cbn in K4; lia|discriminate].
Qed.

Theorem parse_in_range : forall fuel file s ts, tokens fuel s = Ok ts ->
  parse_tokens file ts <> PCrash PRange /\ parse_tokens file ts <> PCrash PNull /\
  parse_tokens file ts <> PCrash PAssert /\ parse_tokens file ts <> PCrash PNotImplemented.
Proof.
  intros fuel file s ts E. pose proof (parse_tokens_crash file ts) as K. specialize (fun c => K c (tokens_stream _ _ _ E)).
  repeat split; intros P; exact (K _ P).
Qed.
Theorem parse_all_tokens : forall fuel file s ts n s', tokens fuel s = Ok ts -> parse_tokens file ts = POk n s' ->
  exists e, p_rest s' = [e] /\ ty e = T_Eof /\
    filter (fun t => negb (is_newline (ty t))) (rev (p_prev s') ++ [e]) =
    filter (fun t => negb (is_newline (ty t))) ts.
Proof. intros fuel file s ts n s' E P. exact (parse_tokens_all file ts n s' (tokens_stream _ _ _ E) P). Qed.
Theorem parse_transform_accessor : forall fuel file s r, parse fuel file s = TransformCrash r ->
  exists ts n s', tokens fuel s = Ok ts /\ parse_tokens file ts = POk n s' /\
    exists d, below d n /\
      exists t op recv message value args safe, d = N_OpAssignAccessor t op recv message value args safe /\
        message <> s2l "[]=" /\ args <> [].
Proof.
  intros fuel file s r H. destruct (parse_transform_crash _ _ _ _ H) as (ts & n & s' & H1 & H2 & d & H3 & H4).
  exists ts, n, s'. repeat split; auto. exists d. split; [exact H3|].
  destruct d; try discriminate H4. do 7 eexists. split; [reflexivity|]. cbn [bad_accessor] in H4.
  apply andb_true_iff in H4. destruct H4 as [H4 H5]. split.
  - intros E. rewrite E in H4. vm_compute in H4. discriminate.
  - intros E. rewrite E in H5. discriminate.
Qed.

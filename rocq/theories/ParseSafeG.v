(** * ParseSafeG: classes, methods and [case] *)
From Coq Require Import Strings.String NArith ZArith Bool List Lia.
From Coq Require Import ZifyBool ZifyNat ZifyN.
From Verif Require Import Base Token Node ParserBase ParserModel ParseHoare ParseNodes ParseTac ParseSafeA ParseSafeB
  ParseSafeC ParseSafeD ParseSafeE ParseSafeF.
Import ListNotations.
Open Scope N_scope.
Open Scope list_scope.
Open Scope monad_scope.

Lemma dot_facts : forall t, is_dot t || is_constant_resolution t = true -> terminal t = false.
Proof. intros t; destruct t; intros H; try discriminate H; reflexivity. Qed.

Lemma pat_nwf : forall n, pat_node n -> nwf n.
Proof. intros n [H _]. exact H. Qed.
Lemma pat_nwf_list : forall l, Forall pat_node l -> Forall nwf l.
Proof. intros l H. eapply Forall_impl; [|exact H]. exact pat_nwf. Qed.
Lemma pat_splat_list : forall l, Forall pat_node l -> Forall (fun c => splat_symbol c = true) l.
Proof. intros l H. eapply Forall_impl; [|exact H]. intros n Hn. apply Hn. Qed.

Lemma array_pattern_ok : forall t l, wf_tok t -> Forall pat_node l -> pat_node (N_ArrayPattern t l).
Proof.
  intros t l Ht Hl. split; [|reflexivity].
  apply nwf_any; [exact Ht|exact (pat_splat_list _ Hl)|reflexivity|exact (pat_nwf_list _ Hl)].
Qed.
Lemma splat_pattern_ok : forall p, pat_node p -> pat_node (splat_pattern p).
Proof.
  intros p Hp. destruct p; try exact Hp. cbn [splat_pattern]. apply array_pattern_ok.
  - apply (nwf_tok _ (proj1 Hp)).
  - constructor; [exact Hp|constructor].
Qed.
Lemma or_pattern_ok : forall t a b, wf_tok t -> nwf a -> nwf b -> nwf (N_LogicalOr t a b).
Proof. intros. nodes. Qed.
Lemma or_patterns_ok : forall l lhs, nwf lhs -> Forall pat_node l -> nwf (or_patterns lhs l).
Proof.
  induction l as [|n l IH]; intros lhs Hl H; cbn [or_patterns]; [exact Hl|].
  inversion_clear H. apply IH; [|assumption].
  apply or_pattern_ok; [|assumption|apply pat_nwf; assumption]. apply nwf_tok, pat_nwf; assumption.
Qed.

Section Safe.
Variable expr : N -> iter_allow -> M node.
Variables fuel bound : nat.
Context {HE : ExprOK expr bound} {HF : FuelOK bound fuel}.

Global Instance parse_class_or_module_name_ok :
  Spec (parse_class_or_module_name expr) (pre_lt bound) (post_lt expr_node).
Proof.
  begin parse_class_or_module_name. do 4 wstep. destruct a; try solve [go; post].
Qed.

Global Instance parse_sclass_ok :
  Spec (parse_sclass expr fuel)
    (fun s => pre_le bound s /\ ty (nth 1 (p_rest s) no_token) = T_LeftShift) (post_lt expr_node).
Proof. begin parse_sclass. go; post. Qed.

Global Instance parse_class_ok : Spec (parse_class expr fuel) (pre_le bound) (post_lt expr_node).
Proof.
  begin parse_class. do 5 wstep; [wstep; post|]. do 11 wstep.
  wstep. match goal with |- wp _ _ ?x => eapply wp_mono with (P := fun n s3 => le_ext x s3 /\ expr_node n) end.
  { wstep; go; post. }
  cbv beta. intros; clean. go; post.
Qed.

Global Instance parse_module_ok : Spec (parse_module expr fuel) (pre_le bound) (post_lt expr_node).
Proof. begin parse_module. go; post. Qed.

Definition good_receiver (r : option node * str) : Prop := match fst r with Some n => nwf n | None => True end.

Global Instance parse_def_name_ok : Spec (parse_def_name expr) (pre_lt bound) (post_lt good_receiver).
Proof.
  begin parse_def_name. do 4 wstep. tall (ty (current s)).
  all: try solve [go; post; cbn; nodes].
  all: wstep.
  all: match goal with |- wp _ _ ?x => eapply wp_mono with (P := fun n s3 => le_ext x s3 /\ good_receiver (n, [])) end;
    [|cbv beta; intros [?|] ? ?; clean; go; post; assumption].
  all: wstep; [match goal with H : is_dot _ || is_constant_resolution _ = true |- _ => apply dot_facts in H end|];
    go; post; cbn; nodes.
Qed.

Global Instance parse_def_rest_ok : forall name,
  Spec (parse_def_rest expr fuel name) (pre_lt bound)
    (fun s r s' => le_ext s s' /\ Forall arg_node (fst r) /\ good_body (snd r)).
Proof.
  intros name. begin parse_def_rest. do 3 wstep.
  match goal with |- wp _ _ ?x => eapply wp_mono with (P := fun l s3 => le_ext x s3 /\ Forall arg_node l) end.
  { wstep.
    - do 5 wstep; [solve [go; post]|]. wstep.
      eapply wp_use; [eapply parse_def_args_ok; inst|side|]. cbv beta. intros; clean. go; post.
    - wstep; [|solve [go; post]].
      eapply wp_use; [eapply parse_def_args_ok; inst|side|]. cbv beta. intros; clean. post. }
  cbv beta. intros; clean. do 3 wstep.
  match goal with |- wp _ _ ?x => eapply wp_mono with (P := fun l s3 => le_ext x s3 /\ good_body l) end.
  { wstep; [|solve [go; post]]. do 2 wstep. wstep; [solve [go]|]. go; post. }
  cbv beta. intros; clean. go; post; cbn [fst snd]; nodes.
Qed.

Lemma def_ok : forall t r name args body, wf_tok t -> good_receiver (r, name) -> Forall arg_node args ->
  good_body body -> expr_node (N_Def t r name args body).
Proof.
  intros t r name args body Ht Hr Ha Hb. split; [|reflexivity].
  apply nwf_any; [exact Ht|exact (arg_is_arg_list _ Ha)|reflexivity|]. cbn [children].
  repeat (apply Forall_app; split).
  all: try (destruct r; cbn [olist]; [constructor; [exact Hr|constructor]|constructor]).
  all: apply expr_nwf_list; nodes.
Qed.

Global Instance parse_def_ok : Spec (parse_def expr fuel) (pre_le bound) (post_lt expr_node).
Proof.
  begin parse_def. do 6 wstep. unfold with_locals. go. post. destruct a. apply def_ok; nodes.
Qed.

Global Instance parse_defined_ok : Spec (parse_defined expr) (pre_le bound) (post_lt expr_node).
Proof.
  begin parse_defined. do 6 wstep. wstep.
  match goal with |- wp _ _ ?x => eapply wp_mono with (P := fun l s3 => le_ext x s3 /\ expr_node l) end.
  { wstep; go; post. }
  cbv beta. intros; clean. wstep.
  match goal with |- wp _ _ ?x => eapply wp_mono with (P := fun _ s3 => le_ext x s3) end.
  { wstep; go; post. }
  cbv beta. intros; clean. go; post.
Qed.

(** *** Patterns *)
Global Instance hash_symbol_key_ok :
  Spec (parse_case_in_pattern_hash_symbol_key expr fuel) (pre_any bound) (post_lt expr_node).
Proof.
  begin parse_case_in_pattern_hash_symbol_key. do 2 wstep. wstep; try solve [go; post].
  - do 2 wstep. match goal with H : str_key _ |- _ => destruct H end. destruct a; try solve [go]; go; post.
Qed.

Definition pattern_ok (pattern : M node) (b : nat) : Prop :=
  Spec pattern (fun s => inv s /\ (W s < b)%nat /\ (W s <= bound)%nat) (post_lt pat_node).

Lemma hash_pattern_pair_ok : forall pattern b acc, pattern_ok pattern b -> Forall nwf acc ->
  Spec (hash_pattern_pair expr fuel pattern acc) (fun s => inv s /\ (W s <= b)%nat /\ (W s <= bound)%nat)
    (post_lt (Forall nwf)).
Proof.
  intros pattern b acc Hp Ha. begin hash_pattern_pair. do 2 wstep.
  pose proof (expr_nwf _ ltac:(eassumption)).
  assert (Hgo : wp
     (c <- cur ;;
      if ttype_eqb (ty c) T_RCurlyBrace || ttype_eqb (ty c) T_Comma then
        (match a with N_SymbolKey _ name => add_local_exact name | _ => ret tt end) ;;;
        ret (acc ++ [a; N_Nil c])
      else
        v <- pattern ;;
        ret (acc ++ [a; v])) (post_lt (Forall nwf) s) s').
  { do 3 wstep.
    - wstep. match goal with |- wp _ _ ?x => eapply wp_mono with (P := fun _ s3 => same_tokens x s3) end.
      { destruct a; try (wstep; apply same_tokens_refl). apply wp_add_local_exact. auto. }
      cbv beta. intros; clean. go; post.
    - wstep. eapply wp_use; [exact Hp|side; lia|]. cbv beta. intros; clean.
      match goal with H : pat_node _ |- _ => apply pat_nwf in H end. go; post. }
  destruct a; try exact Hgo. go; post.
Qed.

Lemma comma_items_le : forall A (P : A -> Prop) (item : M A) b acc,
  Spec item (fun s => inv s /\ (W s < b)%nat /\ (W s < bound)%nat) (post_le P) -> Forall P acc ->
  Spec (comma_items fuel item acc) (fun s => inv s /\ (W s <= b)%nat /\ (W s <= bound)%nat)
    (post_le (Forall P)).
Proof.
  intros A P item b acc Hi Ha. begin (@comma_items). pose proof (fuel_lt fuel bound).
  loop (fun (l : list A) s' => le_ext s s' /\ Forall P l); [|post|lia].
  intros l s1 H3. clean. do 3 wstep; [|solve [go; post]].
  do 2 wstep. wstep. eapply wp_use; [exact Hi|side; lia|]. cbv beta. intros; clean. go; post.
Qed.

Lemma case_in_pattern_ok : forall n, pattern_ok (case_in_pattern expr fuel n) n.
Proof.
  induction n as [|n IH]; intros s Hs; clean; [lia|]. pose proof (fuel_lt fuel bound).
  cbn [case_in_pattern]. do 3 wstep.
  eapply wp_mono with (P := fun x s1 => lt_ext s s1 /\ pat_node x).
  2:{ cbv beta. intros x s1 ?. clean. match goal with H : pat_node _ |- _ => destruct H as [? ?] end.
      do 3 wstep.
      eapply wp_mono with (P := fun x s2 => le_ext s1 s2 /\ pat_node x).
      { wstep; try (wstep; post; split; assumption).
        all: eapply wp_use; [eapply parse_range_expression_ok; inst|side|]; cbv beta; intros; clean; post.
        all: split; [apply expr_nwf|]; assumption. }
      cbv beta. intros y s2 ?. clean. do 3 wstep; [|go; post].
      match goal with H : pat_node _ |- _ => destruct H as [? ?] end. go; post. }
  wstep.
  all: try solve [go; post].
  all: try solve
    [wstep; repeat match goal with H : str_key _ |- _ => destruct H end; post;
     split; [first [assumption | apply expr_nwf; assumption]|assumption]].
  - do 5 wstep; [solve [go; post]|]. wstep.
    eapply wp_use; [eapply (hash_pattern_pair_ok _ n); [exact IH|nodes]|side; lia|]. cbv beta. intros; clean.
    wstep. match goal with |- wp _ _ ?x => eapply wp_mono with (P := fun l s3 => le_ext x s3 /\ Forall nwf l) end.
    { match goal with |- wp _ _ ?x => loop (fun (l : list node) s' => le_ext x s' /\ Forall nwf l); [|post|lia] end.
      intros l s1 Hs1. clean. do 3 wstep; [|solve [go; post]]. do 2 wstep. wstep.
      eapply wp_use; [eapply (hash_pattern_pair_ok _ n); [exact IH|nodes]|side; lia|]. cbv beta. intros; clean. go; post. }
    cbv beta. intros; clean. go; post.
  - do 5 wstep; [solve [go; post]|]. wstep.
    eapply wp_use; [exact IH|side; lia|]. cbv beta. intros; clean. wstep.
    eapply wp_use; [eapply (comma_items_le node pat_node _ n)|side; lia|].
    + intros s1 Hs1. clean. do 3 wstep; [wstep; post|].
      eapply wp_use; [exact IH|side; lia|]. cbv beta. intros; clean. post.
    + constructor; [assumption|constructor].
    + cbv beta. intros; clean. go; post. apply array_pattern_ok; nodes.
  - do 2 wstep. wstep. eapply wp_use; [exact IH|side; lia|]. cbv beta. intros; clean. go; post.
Qed.

Lemma parse_case_in_pattern_ok : pattern_ok (parse_case_in_pattern expr fuel) (S bound).
Proof.
  intros s Hs. clean. unfold parse_case_in_pattern. pose proof (fuel_lt fuel bound).
  eapply wp_use; [apply case_in_pattern_ok|side; lia|]. auto.
Qed.

Global Instance alternation_ok :
  Spec (parse_case_in_pattern_alternation expr fuel) (pre_any bound) (post_lt pat_node).
Proof.
  begin parse_case_in_pattern_alternation. do 3 wstep.
  eapply wp_use; [exact parse_case_in_pattern_ok|side; lia|]. cbv beta. intros; clean. wstep.
  eapply wp_use; [eapply (comma_items_le node pat_node _ bound)|side; lia|].
  - intros s1 Hs1. clean. eapply wp_use; [exact parse_case_in_pattern_ok|side; lia|]. cbv beta. intros; clean. post.
  - constructor; [assumption|constructor].
  - cbv beta. intros l ? ?. clean. wstep. post.
    assert (Hl : pat_node (N_ArrayPattern (current s) l)) by (apply array_pattern_ok; nodes).
    destruct l as [|x [|y l]]; try exact Hl. match goal with H : Forall pat_node [_] |- _ => inversion_clear H end.
    assumption.
Qed.

Global Instance parse_case_in_patterns_ok :
  Spec (parse_case_in_patterns expr fuel) (pre_any bound) (post_lt nwf).
Proof.
  begin parse_case_in_patterns. pose proof (fuel_lt fuel bound). do 3 wstep.
  match goal with |- wp _ _ ?x => eapply wp_mono with (P := fun l s3 => le_ext x s3 /\ Forall pat_node l /\ l <> []) end.
  { match goal with |- wp _ _ ?x =>
      loop (fun (l : list node) s' => le_ext x s' /\ Forall pat_node l /\ l <> []); [| |lia] end.
    - intros l s1 Hs1. clean. do 3 wstep; [|wstep; post]. go. post.
      + apply Forall_app. split; [assumption|]. constructor; [apply splat_pattern_ok; assumption|constructor].
      + destruct l; discriminate.
    - post. constructor; [apply splat_pattern_ok; assumption|constructor]. }
  cbv beta. intros l s1 ?. clean. destruct l as [|x [|y l]]; [congruence| |].
  - match goal with H : Forall pat_node [_] |- _ => inversion_clear H end. wstep. post. apply pat_nwf. assumption.
  - match goal with H : Forall pat_node (_ :: _) |- _ => inversion_clear H as [|? ? ? Hl] end. inversion_clear Hl.
    wstep. post. apply or_patterns_ok; [|assumption].
    apply or_pattern_ok; try apply nwf_tok; apply pat_nwf; assumption.
Qed.

Lemma parse_case_body_ok : forall t, t = T_InKeyword \/ t = T_WhenKeyword ->
  Spec (parse_case_body expr fuel t) (pre_lt bound) (post_le good_body).
Proof.
  intros t Ht. begin parse_case_body. pose proof (fuel_lt fuel bound). do 7 wstep.
  match goal with |- wp _ _ ?x => eapply wp_mono with (P := fun l s3 => le_ext x s3 /\ Forall expr_node l) end.
  { match goal with |- wp _ _ ?x => loop (fun (l : list node) s' => le_ext x s' /\ Forall expr_node l); [|post|lia] end.
    intros l s1 Hs1. clean. do 3 wstep; go; post. }
  cbv beta. intros l s1 ?. clean. do 3 wstep; [|wstep; post].
  destruct Ht as [->| ->]; wstep.
Qed.

Global Instance then_or_next_ok : Spec then_or_next (pre_any bound) (post_le any).
Proof. begin then_or_next. go; post. Qed.

Lemma case_in_ok : forall t p b, wf_tok t -> nwf p -> good_body b -> expr_node (N_CaseIn t p b).
Proof.
  intros t p b Ht Hp Hb. split; [|reflexivity]. apply nwf_any; [exact Ht|exact I|reflexivity|].
  cbn [children]. constructor; [exact Hp|]. apply expr_nwf_list. nodes.
Qed.

Global Instance parse_case_ok : Spec (parse_case expr fuel) (pre_le bound) (post_lt expr_node).
Proof.
  begin parse_case. pose proof (fuel_lt fuel bound). do 7 wstep.
  match goal with |- wp _ _ ?x => eapply wp_mono with (P := fun n s3 => le_ext x s3 /\ expr_node n) end.
  { wstep; go; post. }
  cbv beta. intros subject s1 ?. clean.
  loop (fun (acc : list node * option (token * list node)) s' =>
          le_ext s1 s' /\ Forall expr_node (fst acc) /\ good_obody (snd acc));
    [|post; cbn [fst snd]; nodes|lia].
  intros [ns els] s2 ?. clean. cbn [fst snd] in *. do 3 wstep; [solve [go; post]|].
  wstep; try solve [wstep].
  - destruct ns; [wstep|]. go. post; cbn [fst snd]; nodes.
  - do 4 wstep. do 2 wstep. wstep. eapply wp_use; [apply parse_case_body_ok; auto|side|]. cbv beta. intros; clean.
    wstep. post; cbn [fst snd]; try assumption. apply Forall_app; split; [assumption|].
    constructor; [|constructor]. apply case_in_ok; nodes.
  - do 4 wstep. do 2 wstep. wstep. eapply wp_use; [apply parse_case_body_ok; auto|side|]. cbv beta. intros; clean.
    wstep. post; cbn [fst snd]; nodes.
Qed.
End Safe.

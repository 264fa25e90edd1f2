(** * ParseSafeC: collections, strings and word arrays *)
From Coq Require Import Strings.String NArith ZArith Bool List Lia.
From Coq Require Import ZifyBool ZifyNat ZifyN.
From Verif Require Import Base Token Node ParserBase ParserModel ParseHoare ParseNodes ParseTac ParseSafeA ParseSafeB.
Import ListNotations.
Open Scope N_scope.
Open Scope list_scope.
Open Scope monad_scope.

Global Hint Extern 1 (Spec (parse_hash_inner _ _ _ _ _ (Some _)) _ _) =>
  (eapply parse_hash_inner_some_ok; inst) : typeclass_instances.
Global Hint Extern 1 (Spec (parse_hash_inner _ _ _ _ _ None) _ _) =>
  (eapply parse_hash_inner_none_ok; inst) : typeclass_instances.
Global Hint Extern 1 (Spec (parse_rest_of_begin _ _ _ _) _ _) =>
  (eapply parse_rest_of_begin_ok; inst) : typeclass_instances.

Lemma wp_unterminated : forall A t u (Q : A -> pstate -> Prop) s thing,
  unterminated_thing (ty t) = Some thing -> wp (throw_unterminated_thing t u) Q s.
Proof. intros A t u Q s thing H. unfold throw_unterminated_thing. rewrite H. exact I. Qed.

Section Safe.
Variable expr : N -> iter_allow -> M node.
Variables fuel bound : nat.
Context {HE : ExprOK expr bound} {HF : FuelOK bound fuel}.

Global Instance parse_hash_ok : Spec (parse_hash expr fuel) (pre_any bound) (post_lt expr_node).
Proof. begin parse_hash. go; post. Qed.

Lemma array_add_node_ok : forall acc, Forall expr_node acc ->
  Spec (array_add_node expr fuel acc) (pre_lt bound)
    (fun s r s' => lt_ext s s' /\ Forall expr_node (match r with inl l | inr l => l end)).
Proof. intros acc Ha. begin array_add_node. go; post. Qed.

Global Instance parse_array_ok :
  Spec (parse_array expr fuel) (pre_ty bound [T_LBracket; T_LBracketRBracket]) (post_lt expr_node).
Proof.
  begin parse_array; pose proof (fuel_lt fuel bound).
  - do 6 wstep. wstep. wstep. eapply wp_use; [eapply array_add_node_ok; nodes|side|]. cbv beta. intros ? ? ?. clean.
    wstep.
    + loop (fun (l : list node) s1 => inv s1 /\ (W s1 <= W s')%nat /\ p_precs s1 = p_precs s /\
              (S (D s) <= D s1)%nat /\ Forall expr_node l).
      * intros acc s1 Hi. clean. do 3 wstep.
        -- wstep. wstep. wstep. eapply wp_use; [eapply array_add_node_ok; nodes|side|]. cbv beta. intros ? ? ?. clean.
           wstep; go; post.
        -- go; post.
      * post.
      * lia.
    + go; post.
  - go; post.
Qed.

Global Instance parse_beginless_range_ok : Spec (parse_beginless_range expr) (pre_le bound)
  (fun s n s' => lt_ext s s' /\ expr_node n /\ splat_symbol n = true).
Proof. begin parse_beginless_range. go; post. Qed.
Global Instance parse_block_pass_ok : Spec (parse_block_pass expr) (pre_le bound) (post_lt expr_node).
Proof. begin parse_block_pass. go; post. Qed.

Lemma parse_jump_arg_ok : forall t, wf_tok t ->
  Spec (parse_jump_arg expr fuel t) (pre_lt bound) (post_le good_onode).
Proof.
  intros t Ht. begin parse_jump_arg. do 3 wstep; [solve [go; post]|]. wstep; [|solve [go; post]].
  do 5 wstep; [|solve [go; post]]. wstep.
  eapply wp_use; [eapply (comma_items_ok fuel bound node expr_node); [typeclasses eauto|nodes]|side|].
  intros; clean. go; post.
Qed.
Global Instance parse_break_ok : Spec (parse_break expr fuel) (pre_le bound) (post_lt expr_node).
Proof.
  begin parse_break. do 4 wstep. wstep. eapply wp_use; [eapply parse_jump_arg_ok; nodes|side|]. intros a s2 ?. clean.
  go; post.
Qed.
Global Instance parse_next_ok : Spec (parse_next expr fuel) (pre_le bound) (post_lt expr_node).
Proof.
  begin parse_next. do 4 wstep. wstep. eapply wp_use; [eapply parse_jump_arg_ok; nodes|side|]. intros a s2 ?. clean.
  go; post.
Qed.

Lemma interpolated_body_ok : forall nt en, wf_tok nt -> unterminated_thing (ty nt) <> None -> is_valid en = true ->
  Spec (parse_interpolated_body expr fuel nt en) (pre_lt bound)
    (fun s l s' => le_ext s s' /\ ty (current s') = en /\ Forall expr_node l /\
       Forall (fun c => string_part c = true) l /\ (ty (current s) <> en -> l <> [])).
Proof.
  intros nt en Ht Hu Hen. begin parse_interpolated_body. pose proof (fuel_lt fuel bound).
  loop (fun (l : list node) s' => le_ext s s' /\ Forall expr_node l /\
       Forall (fun c => string_part c = true) l /\ (s' = s \/ l <> [])).
  - intros l s1 Hi. clean. do 2 wstep. wstep.
    + wstep.
      * wstep.
      * do 7 wstep.
        match goal with |- wp _ _ ?x =>
          loop (fun (l : list node) s' => le_ext x s' /\ Forall expr_node l); [|post|lia] end.
        intros l2 s3 Hi2. clean. do 3 wstep.
        -- wstep. go. cbv beta.
           assert (Hn : forall x, string_part x = true -> expr_node x ->
              Forall expr_node (l ++ [x]) /\ Forall (fun c => string_part c = true) (l ++ [x]) /\ l ++ [x] <> []).
           { intros x Hx1 Hx2. split; [nodes|]. split; [apply Forall_app; split; [assumption|constructor; auto]|].
             destruct l; discriminate. }
           match goal with |- context [l ++ [?x]] => destruct (Hn x) as (? & ? & ?) end.
           ++ unfold evaluate_node. destruct l2 as [|x [|y l2]]; try reflexivity; destruct x; reflexivity.
           ++ match goal with H : Forall expr_node l2 |- _ => rename H into Hl2 end.
              unfold evaluate_node. destruct l2 as [|x [|y l2]]; [nodes| |].
              ** inversion_clear Hl2. destruct x; try assumption; nodes.
              ** destruct x; nodes.
           ++ post.
        -- go; post.
      * go. post; try (right; destruct l; discriminate).
    + wstep.
      * destruct (unterminated_thing (ty nt)) as [th|] eqn:Eu; [|congruence].
        wstep; try (eapply wp_unterminated; exact Eu). wstep.
      * go. post; try assumption.
        -- match goal with H : negb _ = false |- _ => apply negb_false_iff in H; clean; assumption end.
        -- intros Hne. match goal with H : _ \/ _ |- _ => destruct H as [->|]; [|assumption] end.
           match goal with H : negb _ = false |- _ => apply negb_false_iff in H; clean; congruence end.
  - post; try (left; reflexivity).
  - lia.
Qed.

Global Instance parse_interpolated_regexp_ok :
  Spec (parse_interpolated_regexp expr fuel) (pre_ty bound [T_InterpolatedRegexpBegin]) (post_lt expr_node).
Proof.
  begin parse_interpolated_regexp. do 9 wstep; [solve [go; post]|].
  wstep; [solve [go; post]|].
  wstep. eapply wp_use; [eapply interpolated_body_ok; [nodes|rew_types; discriminate|reflexivity]|side|].
  cbv beta. intros; clean. go; post.
Qed.
Global Instance parse_interpolated_shell_ok :
  Spec (parse_interpolated_shell expr fuel) (pre_ty bound [T_InterpolatedShellBegin]) (post_lt expr_node).
Proof.
  begin parse_interpolated_shell. do 9 wstep; [solve [go; post]|].
  wstep; [solve [go; post]|].
  wstep. eapply wp_use; [eapply interpolated_body_ok; [nodes|rew_types; discriminate|reflexivity]|side|].
  cbv beta. intros; clean. go; post.
Qed.
Global Instance parse_interpolated_symbol_ok :
  Spec (parse_interpolated_symbol expr fuel) (pre_ty bound [T_InterpolatedSymbolBegin])
    (fun s n s' => lt_ext s s' /\ (W s' + 2 <= W s)%nat /\ expr_node n /\ splat_symbol n = true).
Proof.
  begin parse_interpolated_symbol. do 9 wstep; [solve [go; post]|].
  wstep; [solve [go; post]|].
  wstep. eapply wp_use; [eapply interpolated_body_ok; [nodes|rew_types; discriminate|reflexivity]|side|].
  cbv beta. intros; clean. go; post.
Qed.

(** *** Adjacent strings *)
Definition str_key (n : node) : Prop := expr_node n /\ splat_symbol n = true.
Definition next_ok (next : M node) (b : nat) : Prop :=
  Spec next (fun s => inv s /\ (W s < b)%nat /\ (W s <= bound)%nat /\
               In (ty (current s)) [T_String; T_InterpolatedStringBegin]) (post_lt str_key).

Lemma str_is_key : forall n, string_node n -> str_key n.
Proof. intros n [H1 H2]. split; [exact H1|]. destruct n; try discriminate; reflexivity. Qed.

Lemma finish_string_ok : forall next b n, next_ok next b -> string_node n ->
  Spec (finish_string fuel next n) (fun s => inv s /\ (W s < b)%nat /\ (W s < bound)%nat) (post_le str_key).
Proof.
  intros next b n Hn Hsn. begin finish_string. pose proof (fuel_lt fuel bound).
  assert (Hc : forall Q : node * bool -> pstate -> Prop,
      (forall r s', le_ext s s' -> string_node (fst r) -> Q r s') ->
      wp (concat_adjacent_strings fuel next n) Q s).
  { intros Q HQ. unfold concat_adjacent_strings.
    loop (fun (r : node * bool) s' => le_ext s s' /\ string_node (fst r)); [|post; assumption|lia].
    intros r s1 Hi. clean. do 2 wstep. wstep.
    - wstep. apply HQ; [ext|assumption].
    - wstep. eapply wp_use; [exact Hn|side; lia|]. cbv beta. intros ? ? ?. clean.
      match goal with H : str_key _ |- _ => destruct H end.
      wstep. eapply wp_use; [apply append_string_nodes_ok; assumption|assumption|]. cbv beta. intros ? ? [-> ?].
      wstep. post; try assumption.
    - wstep. eapply wp_use; [exact Hn|side; lia|]. cbv beta. intros ? ? ?. clean.
      match goal with H : str_key _ |- _ => destruct H end.
      wstep. eapply wp_use; [apply append_string_nodes_ok; assumption|assumption|]. cbv beta. intros ? ? [-> ?].
      wstep. post; try assumption. }
  assert (Hrest : forall r s', le_ext s s' -> string_node (fst r) ->
      wp (let '(string, appended) := r in
          b <- cur_is T_InterpolatedStringSymbolKey ;;
          if negb appended && b then advance ;;; convert_string_to_symbol_key string else ret string)
         (post_le str_key s) s').
  { intros [str app] s1 Hext Hr. clean. cbn [fst] in Hr. do 3 wstep.
    - do 2 wstep. destruct (string_node_cases _ Hr) as [(t & v & ->)|(t & l & ->)]; cbn [convert_string_to_symbol_key].
      + destruct Hr as [Hr _]. pose proof (expr_tok _ Hr). wstep. post. split; nodes.
      + destruct Hr as [Hr _]. destruct (interpolated_inv _ _ Hr) as (? & ? & ? & ?). wstep. post. split; nodes.
    - wstep. post. apply str_is_key. assumption. }
  do 3 wstep. wstep.
  - apply Hc. exact Hrest.
  - wstep; [apply Hc; exact Hrest|]. wstep. apply (Hrest (n, false)); [ext|assumption].
Qed.

Lemma parse_string_with_ok : forall next b, next_ok next b ->
  Spec (parse_string_with fuel next)
    (fun s => inv s /\ (W s <= b)%nat /\ (W s <= bound)%nat /\ ty (current s) = T_String) (post_lt str_key).
Proof.
  intros next b Hn. begin parse_string_with. do 6 wstep.
  eapply wp_use; [eapply finish_string_ok; [exact Hn|split; [nodes|reflexivity]]|side; lia|].
  intros; clean. post; try assumption.
Qed.

Lemma interpolated_string_node : forall t l, wf_tok t -> l <> [] ->
  Forall expr_node l -> Forall (fun c => string_part c = true) l -> string_node (N_InterpolatedString t l).
Proof. intros t l H1 H2 H3 H4. split; [|reflexivity]. nodes. Qed.

Lemma parse_interpolated_string_with_ok : forall next b, next_ok next b ->
  Spec (parse_interpolated_string_with expr fuel next)
    (fun s => inv s /\ (W s <= b)%nat /\ (W s <= bound)%nat /\ ty (current s) = T_InterpolatedStringBegin)
    (post_lt str_key).
Proof.
  intros next b Hn. begin parse_interpolated_string_with.
  apply wp_bind, wp_cur. do 2 wstep. apply wp_bind, wp_cur. apply wp_bind, wp_peek. cbv beta.
  apply wp_bind. eapply wp_mono with (P := fun n s1 => le_ext s' s1 /\ string_node n).
  - wstep; [|wstep].
    + go. post. split; [nodes|reflexivity].
    + go. post. split; [nodes|reflexivity].
    + wstep. eapply wp_use; [eapply interpolated_body_ok; [nodes|rew_types; discriminate|reflexivity]|side|].
      cbv beta. intros; clean. go; post. apply interpolated_string_node; [nodes| |nodes|assumption].
      match goal with H : _ -> ?l <> [] |- ?l <> [] => apply H end.
      match goal with H : ttype_eqb _ T_InterpolatedStringEnd = false |- _ => intros Hx; rewrite Hx in H; discriminate end.
  - intros ? ? ?. clean.
    eapply wp_use; [eapply finish_string_ok; [exact Hn|assumption]|side; lia|].
    intros; clean. post; try assumption.
Qed.

Lemma next_string_ok : forall n, next_ok (next_string expr fuel n) n.
Proof.
  induction n as [|n IH]; intros s Hs; clean; [lia|].
  types; cbn [next_string]; apply wp_bind, wp_cty; rewrite Ety.
  - eapply wp_use; [eapply parse_string_with_ok; exact IH|side; lia|]. auto.
  - eapply wp_use; [eapply parse_interpolated_string_with_ok; exact IH|side; lia|]. auto.
Qed.

Global Instance parse_string_ok :
  Spec (parse_string expr fuel) (pre_ty bound [T_String]) (post_lt str_key).
Proof.
  begin parse_string. pose proof (fuel_lt fuel bound).
  eapply wp_use; [eapply parse_string_with_ok; apply next_string_ok|side; lia|]. auto.
Qed.
Global Instance parse_interpolated_string_ok :
  Spec (parse_interpolated_string expr fuel) (pre_ty bound [T_InterpolatedStringBegin]) (post_lt str_key).
Proof.
  begin parse_interpolated_string. pose proof (fuel_lt fuel bound).
  eapply wp_use; [eapply parse_interpolated_string_with_ok; apply next_string_ok|side; lia|]. auto.
Qed.
End Safe.

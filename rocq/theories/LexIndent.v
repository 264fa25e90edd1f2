(** * LexIndent: blanks in front of the source *)
From Coq Require Import Strings.String NArith ZArith Bool Arith List Lia ZifyBool ZifyNat ZifyN.
From Verif Require Import Base Token Spec SpecPlace LexModel LexBasics LexRest LexLoops LexSpec LexEsc LexHeredoc LexSwitch LexNested LexInv LexTree LexShift LexPaste.
Import ListNotations.
Open Scope N_scope.

Lemma sht_moved l c t : sht l c idb t = moved l c t.
Proof. destruct t. unfold sht, moved, scol, idb. cbn. destruct tk_line; reflexivity. Qed.
Lemma sht_spaced l c t : sht l c (fun _ => true) t = spaced (moved l c t).
Proof. destruct t. unfold sht, moved, spaced, scol. cbn. destruct tk_line; reflexivity. Qed.

(** Only the types of the tokens collected so far matter for what follows. *)
Lemma pop_head acc (t t' : token) : ty t' = ty t ->
  (pop_newlines (acc ++ [t]) = [] /\ pop_newlines (acc ++ [t']) = []) \/
  exists acc', pop_newlines (acc ++ [t]) = acc' ++ [t] /\ pop_newlines (acc ++ [t']) = acc' ++ [t'].
Proof.
  intros E. induction acc as [|u acc IH]; cbn [app pop_newlines].
  - rewrite E. destruct (is_newline (ty t)); [left; auto|right; exists []; auto].
  - destruct (is_newline (ty u)); [exact IH|]. right. exists (u :: acc). auto.
Qed.
Definition head_rel (t t' : token) (a b : list token) : Prop := a = b \/ exists r, a = t :: r /\ b = t' :: r.
Lemma related_refl {A} (R : A -> A -> Prop) x : (forall a, R a a) -> related R x x.
Proof. intros H. destruct x; cbn; auto. Qed.
Lemma loop_head t t' : ty t' = ty t -> forall fuel l acc skip pending,
  related (head_rel t t') (tokens_loop fuel l (acc ++ [t]) skip pending) (tokens_loop fuel l (acc ++ [t']) skip pending).
Proof.
  intros E. induction fuel as [|fuel IH]; intros l acc skip pending; [exact I|]. cbn [tokens_loop].
  destruct (next_token l) as [[u l']| |]; cbn [bind]; [|reflexivity|exact I].
  destruct (is_comment (ty u)); [apply IH|]. destruct (is_doc (ty u)); [apply IH|]. destruct (skip && is_newline (ty u)); [apply IH|].
  set (q := match pending with
            | Some d => if can_have_doc (ty u) then (set_doc u d, None) else if negb (is_end_of_line (ty u)) then (u, None) else (u, pending)
            | None => (u, pending) end). destruct q as [v pend].
  assert (D : forall a a', (a = [] /\ a' = []) \/ (exists acc', a = acc' ++ [t] /\ a' = acc' ++ [t']) ->
    related (head_rel t t')
      (if is_eof (ty v) then Ok (rev (v :: a)) else if negb (is_valid (ty v)) then Ok (rev (v :: a))
       else tokens_loop fuel (record_last l' v) (v :: a) (can_precede_collapsible_newline (ty v)) pend)
      (if is_eof (ty v) then Ok (rev (v :: a')) else if negb (is_valid (ty v)) then Ok (rev (v :: a'))
       else tokens_loop fuel (record_last l' v) (v :: a') (can_precede_collapsible_newline (ty v)) pend)).
  { intros a a' [[-> ->]|(acc' & -> & ->)].
    - apply related_refl. intros x. left. reflexivity.
    - assert (K : head_rel t t' (rev (v :: acc' ++ [t])) (rev (v :: acc' ++ [t']))).
      { right. exists (rev acc' ++ [v]). split; cbn [rev]; rewrite rev_app_distr; reflexivity. }
      destruct (is_eof (ty v)); [exact K|]. destruct (negb _); [exact K|].
      rewrite !app_comm_cons. apply IH. }
  destruct (can_follow_collapsible_newline (ty u)); apply D; [apply pop_head; exact E|right; exists acc; auto].
Qed.

Lemma tokens_loop_nonempty fuel : forall l acc skip pending, tokens_loop fuel l acc skip pending = Ok [] -> False.
Proof.
  induction fuel as [|fuel IH]; intros l acc skip pending; [discriminate|]. cbn [tokens_loop].
  destruct (next_token l) as [[u l']| |]; cbn [bind]; [|discriminate..].
  destruct (is_comment (ty u)); [apply IH|]. destruct (is_doc (ty u)); [apply IH|]. destruct (skip && is_newline (ty u)); [apply IH|].
  match goal with |- (let '(_, _) := ?q in _) = _ -> _ => destruct q as [v pend] end.
  destruct (is_eof (ty v)); [cbn [rev]; intros H; injection H as H; apply app_eq_nil in H; destruct H; discriminate|].
  destruct (negb _); [cbn [rev]; intros H; injection H as H; apply app_eq_nil in H; destruct H; discriminate|]. apply IH.
Qed.

(** ** Skipping the blanks *)

Definition blank_char (c : N) : Prop := c = " "%ch \/ c = ch_tab.
Lemma skip_blanks_front b s : Forall blank_char b -> forall i fuel fl, (i <= length b)%nat -> (fl = true \/ i < length b)%nat ->
  skip_ws_loop ((length b - i) + fuel) (set_cur (new_lx (b ++ s)) (Cur i 0 i)) fl =
  skip_ws_loop fuel (set_cur (new_lx (b ++ s)) (Cur (length b) 0 (length b))) true.
Proof.
  intros Hb i. remember (length b - i)%nat as d eqn:Ed. revert i Ed. induction d as [|d IH]; intros i Ed fuel fl Hi Hf.
  - replace i with (length b) by lia. destruct Hf as [->|Hf]; [reflexivity|lia].
  - cbn [plus skip_ws_loop]. set (g := set_cur _ _).
    assert (Hc : current_char g = nth i b 0).
    { unfold g, current_char, at_. cbn [l_size new_lx set_cur l_cur c_idx l_input]. rewrite app_length.
      replace (length b + length s <=? i)%nat with false by lia. rewrite app_nth1 by lia.
      apply nth_indep. lia. }
    rewrite Forall_forall in Hb. assert (B : blank_char (current_char g)) by (rewrite Hc; apply Hb, nth_In; lia).
    assert (Ha : advance g = set_cur (new_lx (b ++ s)) (Cur (S i) 0 (S i))).
    { unfold advance. replace (current_char g =? ch_nl) with false by (destruct B as [->| ->]; reflexivity). reflexivity. }
    rewrite Ha. replace (current_char g =? ch_bs) with false by (destruct B as [->| ->]; reflexivity).
    replace ((current_char g =? " "%ch) || (current_char g =? ch_tab) || false && _) with true by (destruct B as [->| ->]; reflexivity).
    apply IH; [lia|lia|left; reflexivity].
Qed.
Lemma skip_flag fuel : forall f fl b g, skip_ws_loop fuel f fl = Ok (b, g) -> skip_ws_loop fuel f true = Ok (true, g).
Proof.
  induction fuel as [|fuel IH]; intros f fl b g; [discriminate|]. cbn [skip_ws_loop].
  destruct (_ || _); [intros H; exact (IH _ _ _ _ H)|]. intros H. injection H as _ <-. reflexivity.
Qed.
Lemma skip_none fuel : forall f fl g, skip_ws_loop fuel f fl = Ok (false, g) -> g = f.
Proof.
  induction fuel as [|fuel IH]; intros f fl g; [discriminate|]. cbn [skip_ws_loop].
  destruct (_ || _); [|intros H; injection H as _ <-; reflexivity].
  intros H. exfalso. revert H. generalize (if current_char f =? ch_bs then advance (advance f) else advance f). clear.
  induction fuel as [|fuel IH]; intros h; [discriminate|]. cbn [skip_ws_loop]. destruct (_ || _); [apply IH|discriminate].
Qed.

Notation tr := (fun _ : bool => true).
Notation it := (fun t : ttype => t).

Section indent.
Variables (b s : str).
Hypotheses (Hb : Forall blank_char b) (Hne : b <> []) (Hbytes : bytes s) (Hsmall : small s).
Hypotheses (Hmark : nth 0 s 0 <> 0xEF) (Hbegin : firstn 6 s <> s2l "=begin") (Hshift : firstn 2 s <> s2l "<<").
Let n := length b.

Lemma start_node : node_ok s (new_lx s) KBase.
Proof. apply (ok_start s Hbytes Hsmall). Qed.

Lemma first_ready fl g : skip_ws (new_lx s) KBase = Ok (fl, g) -> kind_ready b n tr it KBase (set_tokpos g fl).
Proof.
  intros E. cbn [skip_ws] in E.
  pose proof (ready_away s b n (or_intror Hmark) (or_intror Hbegin) false (new_lx s) KBase start_node) as R.
  assert (R' : kind_ready b n idb it KBase (set_tokpos g fl)).
  { apply R; [split; [reflexivity|discriminate]|exact E]. } clear R.
  destruct R' as (R1 & _ & R3 & R4).
  split; [exact R1|]. split; [|split; [exact R3|]].
  - destruct fl; [left; reflexivity|]. apply skip_none in E. subst g. right. split; [reflexivity|]. split; [reflexivity|].
    change (current_char (set_tokpos (new_lx s) false)) with (current_char (new_lx s)).
    change (peek (set_tokpos (new_lx s) false)) with (peek (new_lx s)).
    unfold current_char, peek, at_. cbn [l_size new_lx l_cur c_idx l_input].
    intros H1 H2. clear - H1 H2 Hshift. destruct s as [|x [|y r]]; [discriminate H1|discriminate H2|].
    apply Hshift. cbn [firstn]. change (x = "<"%ch) in H1. change (y = "<"%ch) in H2. rewrite H1, H2. reflexivity.
  - destruct R4 as [[R4 _]|R4]; [exfalso; apply Hne; exact R4|right; exact R4].
Qed.

Lemma first_step :
  next_own (new_lx (b ++ s)) KBase = mapr (so b 0 n tr it) (next_own (new_lx s) KBase).
Proof.
  unfold next_own. pose proof (skip_ws_post (fun _ => False) (new_lx s) KBase) as Hp.
  destruct (skip_ws (new_lx s) KBase) as [[fl g]| |] eqn:E; [|destruct Hp..]. clear Hp.
  pose proof (first_ready fl g E) as R. cbn [skip_ws] in *. unfold skip_whitespace in *.
  assert (X : exists g2, skip_ws_loop (loop_fuel (new_lx (b ++ s))) (new_lx (b ++ s)) false = Ok (true, g2) /\ clear g2 = clear (sh b 0 n idb it g)).
  { replace (loop_fuel (new_lx (b ++ s))) with ((length b - 0) + loop_fuel (new_lx s))%nat
      by (unfold loop_fuel; cbn [l_size new_lx l_cur c_idx]; rewrite app_length; lia).
    change (new_lx (b ++ s)) with (set_cur (new_lx (b ++ s)) (Cur 0 0 0)).
    rewrite (skip_blanks_front b s Hb) by (destruct b; [congruence|cbn; lia]). fold n.
    pose proof (clear_skip_loop (loop_fuel (new_lx s)) (set_cur (new_lx (b ++ s)) (Cur n 0 n)) true) as C1.
    assert (Ec : clear (set_cur (new_lx (b ++ s)) (Cur n 0 n)) = clear (sh b 0 n idb it (new_lx s))).
    { unfold clear, sh, set_cur, new_lx, scur, scol. cbn. rewrite app_length, !Nat.add_0_r. reflexivity. }
    rewrite Ec, clear_skip_loop, sh_skip_ws_loop in C1. rewrite (skip_flag _ _ _ _ _ E) in C1. clear E. cbn [mapr sp fst snd] in C1.
    destruct (skip_ws_loop _ _ _) as [[fl2 g2]| |]; cbn [mapr fst snd] in C1; try discriminate.
    exists g2. apply (f_equal (fun r => match r with Ok p => p | _ => (true, clear g) end)) in C1.
    split; [|symmetry; exact (f_equal snd C1)]. rewrite <- (f_equal fst C1 : true = fl2). reflexivity. }
  destruct X as (g2 & X1 & X2). rewrite X1. cbn [bind]. cbv zeta.
  change (set_tokpos g2 true) with (set_tokpos (clear g2) true). rewrite X2.
  change (set_tokpos (clear (sh b 0 n idb it g)) true) with (sh b 0 n tr it (set_tokpos g fl)).
  rewrite sh_build by exact R. destruct (build _ _) as [[[[t f1] k1] n1]| |]; reflexivity.
Qed.

Lemma sh_twice dl dc wsf lf f : sh [] 0 0 idb it (sh b dl dc wsf lf f) = sh b dl dc wsf lf f.
Proof.
  unfold sh, scur, scol, kind_only, idb. cbn. f_equal.
  - f_equal. destruct (_ =? 0)%nat, (_ =? 0)%nat; reflexivity.
  - rewrite map_id. reflexivity.
  - destruct (_ =? 0)%nat, (_ =? 0)%nat; reflexivity.
Qed.
Lemma shn_twice dl dc wsf lf m : shn [] 0 0 idb it (shn b dl dc wsf lf m) = shn b dl dc wsf lf m.
Proof.
  destruct m as [f k c]. unfold shn. rewrite (alters_kind _ k c f c). destruct (alters_parent _); [rewrite sh_twice; reflexivity|reflexivity].
Qed.
Lemma so_twice dl dc wsf lf p : so [] 0 0 idb it (so b dl dc wsf lf p) = so b dl dc wsf lf p.
Proof.
  destruct p as [t [f k [m|]]]; cbn [so option_map]; rewrite sht_home, sh_twice; [rewrite shn_twice|]; reflexivity.
Qed.

Theorem indent_tokens fuel :
  related (indented_by n) (tokens fuel s) (tokens fuel (b ++ s)).
Proof.
  unfold tokens. destruct fuel as [|fuel]; [exact I|]. cbn [tokens_loop next_token]. rewrite first_step.
  destruct (next_own (new_lx s) KBase) as [[t1 [g1 k1 n1]]| |] eqn:E1; cbn [mapr bind]; [|reflexivity|exact I].
  destruct (so b 0 n tr it (t1, Lexer g1 k1 n1)) as [t2 [g2 k2 n2]] eqn:E2.
  assert (E3 : so (hpre b false) 0 n tr it (t1, Lexer g1 k1 n1) = so [] 0 0 idb it (t2, Lexer g2 k2 n2)) by (rewrite <- E2, so_twice; reflexivity).
  destruct (own_done s b 0 n (or_intror Hmark) (or_intror Hbegin) false tr it it (new_lx s) KBase t1 g1 k1 n1 t2 g2 k2 n2 start_node) as (H1 & H2 & H3 & H4 & H5 & H6);
    [split; [reflexivity|discriminate]|exact E1|exact E3|intros m1 m2 _ _ ->; reflexivity|].
  assert (Hok : ok s (Lexer g1 k1 n1)).
  { pose proof (next_token_post s _ (ok_start s Hbytes Hsmall)) as Hp. cbn [next_token] in Hp. rewrite E1 in Hp. exact (tr_ok _ _ _ _ Hp). }
  assert (Hrel : rel s b 0 n false (Lexer g1 k1 n1) (Lexer g2 k2 n2)).
  { cbn [rel]. split; [exact H2|]. split; [exact H4|]. split; [|exact H6]. unfold lfk. rewrite H3. exact H5. }
  clear E1 E2 E3 H2 H3 H4 H5 H6. generalize dependent (Lexer g1 k1 n1). generalize (Lexer g2 k2 n2). intros l2 l1 Hok Hrel.
  assert (Same : forall l1 l2 pending, ok s l1 -> rel s b 0 n false l1 l2 ->
    related (indented_by n) (tokens_loop fuel l1 [] false pending) (tokens_loop fuel l2 [] false pending)).
  { intros m1 m2 pending Ho Hr.
    pose proof (loop_rel s b 0 n (or_intror Hmark) (or_intror Hbegin) fuel m1 m2 [] [] false pending Ho Hr (or_introl eq_refl)) as L.
    cbn [map app rev] in L. rewrite L. pose proof (tokens_loop_nonempty fuel m1 [] false pending) as Hnil.
    destruct (tokens_loop fuel m1 [] false pending) as [ts| |]; cbn [mapr related]; [|reflexivity|exact I].
    destruct ts as [|t ts]; [destruct (Hnil eq_refl)|]. cbn [map indented_by]. rewrite sht_moved. split; [left; reflexivity|].
    apply map_ext. intros u. apply sht_moved. }
  subst t2. change (ty (sht 0 n tr t1)) with (ty t1). change (literal_or_blank (sht 0 n tr t1)) with (literal_or_blank t1).
  destruct (is_comment (ty t1)); [apply Same; assumption|]. destruct (is_doc (ty t1)); [apply Same; assumption|].
  cbn [andb pop_newlines].
  replace (if can_follow_collapsible_newline (ty t1) then [] else []) with (@nil token) by (destruct (can_follow_collapsible_newline _); reflexivity).
  change (ty (sht 0 n tr t1)) with (ty t1).
  assert (One : indented_by n [t1] [sht 0 n tr t1]) by (cbn [indented_by]; split; [right; apply sht_spaced|reflexivity]).
  destruct (is_eof (ty t1)); [exact One|]. destruct (negb (is_valid (ty t1))); [exact One|].
  assert (Hok' := ok_record s l1 t1 Hok).
  assert (Hrel' : rel s b 0 n false (record_last l1 t1) (record_last l2 (sht 0 n tr t1))) by (apply record_rel; [reflexivity|exact Hrel]).
  pose proof (loop_rel s b 0 n (or_intror Hmark) (or_intror Hbegin) fuel _ _ [t1] [] (can_precede_collapsible_newline (ty t1)) None Hok' Hrel' (or_introl eq_refl)) as L.
  cbn [map app rev] in L.
  pose proof (loop_head (sht 0 n idb t1) (sht 0 n tr t1) eq_refl fuel (record_last l2 (sht 0 n tr t1)) [] (can_precede_collapsible_newline (ty t1)) None) as K.
  cbn [app] in K. rewrite L in K. pose proof (tokens_loop_nonempty fuel (record_last l1 t1) [t1] (can_precede_collapsible_newline (ty t1)) None) as Hnil.
  destruct (tokens_loop fuel (record_last l1 t1) [t1] _ None) as [ts| |]; cbn [mapr] in K;
    destruct (tokens_loop fuel (record_last l2 (sht 0 n tr t1)) [sht 0 n tr t1] _ None) as [us| |]; cbn [related] in K |- *;
    try (destruct K; fail); try exact K.
  destruct ts as [|t ts]; [destruct (Hnil eq_refl)|]. destruct K as [<-|(r & K1 & ->)].
  - cbn [map indented_by]. rewrite sht_moved. split; [left; reflexivity|]. apply map_ext. intros u. apply sht_moved.
  - cbn [map] in K1. assert (K2 : sht 0 n idb t = sht 0 n idb t1) by exact (f_equal (fun l => hd t l) K1).
    assert (K3 : map (sht 0 n idb) ts = r) by exact (f_equal (fun l => tl l) K1).
    cbn [indented_by]. split.
    + right. rewrite sht_spaced, <- !sht_moved, K2. reflexivity.
    + rewrite <- K3. apply map_ext. intros u. apply sht_moved.
Qed.
End indent.

(** * LexInterp: names inside interpolated strings *)
From Coq Require Import Strings.String NArith ZArith Bool Arith List Lia ZifyBool ZifyNat ZifyN.
From Verif Require Import Base Token Spec SpecLit LexModel LexBasics LexRest LexInv LexFwd LexString LexQuoted LexArray LexIdent LexWords LexUnterminated TokensProofs.
Import ListNotations.
Open Scope N_scope.

(** Tokens of a nested lexer, which are not recorded as its last token. *)
Inductive lemits : lexer -> list token -> lexer -> Prop :=
| lemits_nil l : lemits l [] l
| lemits_cons l t l1 ts l2 : next_token l = Ok (t, l1) -> is_eof (ty t) = false -> lemits l1 ts l2 -> lemits l (t :: ts) l2.
Lemma lemits_app l1 ts1 l2 : lemits l1 ts1 l2 -> forall ts2 l3, lemits l2 ts2 l3 -> lemits l1 (ts1 ++ ts2) l3.
Proof. induction 1; intros; [assumption|]. cbn [app]. eapply lemits_cons; eauto. Qed.
Lemma lemits_lift l ts l' : lemits l ts l' -> forall f,
  exists t, emits (Lexer f KBase (Some l)) ts (Lexer (set_last f t) KBase (Some l')).
Proof.
  induction 1 as [l|l t l1 ts l2 H1 He H2 IH]; intros f.
  - exists (l_last f). replace (set_last f (l_last f)) with f by (destruct f; reflexivity). constructor.
  - destruct (IH (set_last f t)) as [t' E]. exists t'.
    eapply emits_step; [|change (set_last f t') with (set_last (set_last f t) t'); exact E].
    cbn [next_token]. rewrite H1. cbn [bind]. rewrite He. reflexivity.
Qed.

(** The state of a string lexer standing before [r]. *)
Definition in_string (start stop : N) (g0 g : lx) (r : str) : Prop :=
  at_text g r /\ l_stop g = stop /\ (l_start g = 0 \/ l_start g = start) /\ l_depth g = 0%nat /\ l_input g = l_input g0
  /\ l_idx g <> 0%nat.

Lemma in_string_adv start stop g0 g w r : in_string start stop g0 g (w ++ r) -> in_string start stop g0 (advance_n (length w) g) r.
Proof.
  intros (H1 & H2 & H3 & H4 & H5 & H6). split; [apply at_adv_n; exact H1|].
  pose proof (advance_n_idx (length w) g).
  rewrite advance_n_stop, advance_n_start, advance_n_depth. repeat split; auto; [|lia]. rewrite (advance_n_frame _ g). exact H5.
Qed.

Lemma string_tail g0 g start stop et ps r :
  is_eof et = false -> delimiter_ok start stop -> body_ok start stop ps ->
  in_string start stop g0 g (body_text ps ++ stop :: r) ->
  exists ts g', lemits (Lexer g (KStr InProgress et true) None) ts (Lexer g' (KStr Done et true) None)
    /\ shapes ts = content (body_bytes ps) ++ [(et, None)] /\ at_text g' r /\ l_input g' = l_input g0.
Proof.
  intros He (S1 & S2 & S3 & S4) Hok (Hat & Hst & Hs0 & Hd & Hi & Hx).
  set (g1 := set_tokpos g false). assert (Hat' : at_text g1 (body_text ps ++ stop :: r)) by exact Hat.
  set (h := advance_n (S (length (body_text ps))) g1).
  assert (H0 : str_loop (loop_fuel g1) g1 et true [] =
    match body_bytes ps with
    | [] => str_finish h et true
    | _ => Ok (tkl h T_String (body_bytes ps), h, KStr EndToken et true, None)
    end).
  { apply (str_loop_fwd start stop et true S1 S2 S3 ps _ _ [] r); auto.
    rewrite (at_fuel _ _ Hat'), app_length. pose proof (body_len ps). cbn [length]. lia. }
  assert (Hh : at_text h r) by (unfold h; rewrite <- advance_n_S; apply (at_adv _ stop), at_adv_n; exact Hat').
  assert (Hhi : l_input h = l_input g0) by (unfold h; rewrite (advance_n_frame _ g1); exact Hi).
  destruct (body_bytes ps) as [|b bs] eqn:Eb.
  - eexists [_], _. split; [|split].
    + eapply lemits_cons; [| |apply lemits_nil].
      * cbn [next_token]. unfold next_own. cbn [skip_ws bind build build_str]. fold g1. rewrite H0. reflexivity.
      * cbn. exact He.
    + reflexivity.
    + split; [exact Hh|exact Hhi].
  - eexists [_; _], _. split; [|split].
    + eapply lemits_cons; [| |eapply lemits_cons; [| |apply lemits_nil]].
      * cbn [next_token]. unfold next_own. cbn [skip_ws bind build build_str]. fold g1. rewrite H0. reflexivity.
      * reflexivity.
      * cbn [next_token]. unfold next_own. cbn [skip_ws bind build build_str]. reflexivity.
      * cbn. exact He.
    + reflexivity.
    + split; [exact Hh|exact Hhi].
Qed.

(** [#{name}] read from just behind the brace. *)
Lemma name_emits g0 g start stop et w r :
  plain_name w -> in_string start stop g0 g (w ++ "}"%ch :: r) ->
  exists ts g', lemits (Lexer g (KStr EvaluateEnd et true) (Some (Lexer (sub_lx g "{"%ch "}"%ch) KBase None))) ts
      (Lexer g' (KStr InProgress et true) None)
    /\ shapes ts = [(name_type w, Some w); (T_EvaluateToStringEnd, None)]
    /\ in_string start stop g0 g' r.
Proof.
  intros (c & v & -> & Hc & Hv & Hr) (Hat & Hst & Hs0 & Hd & Hi & Hx).
  set (h := sub_lx g "{"%ch "}"%ch). set (h0 := set_tokpos h false).
  assert (Hath : at_text h0 (c :: v ++ "}"%ch :: r)) by exact Hat.
  assert (Hcn : 65 <= c) by (unfold ident_start in Hc; lia).
  assert (Hcb : c <> "{"%ch /\ c <> "}"%ch) by (unfold ident_start in Hc; lia).
  assert (E1 : lex_switch h0 = Ok (tkl h0 (name_type (c :: v)) (c :: v), advance_n (S (length v)) h0, None)).
  { apply (lex_ident_fwd h0 c v ("}"%ch :: r)); auto; try discriminate.
    - apply ident_start_name. exact Hc.
    - eapply Forall_impl; [|exact Hv]. apply ident_char_ok.
    - intros [t Ht]. apply (Hr t). apply reserved_keywords. exact Ht. }
  assert (E2 : next_own h KBase = Ok (tkl h0 (name_type (c :: v)) (c :: v),
    Lexer (set_names (advance_n (S (length v)) h0) (update_names (l_names (advance_n (S (length v)) h0)) (name_type (c :: v)))) KBase None)).
  { unfold next_own. cbn [skip_ws]. rewrite (skip_ws_none h (c :: v ++ "}"%ch :: r) Hat).
    2, 3: cbn [hd]; unfold ch_tab; lia. 2: left; cbn [hd]; intros ->; unfold ident_start, ch_bs in Hc; lia.
    cbn [bind build]. fold h0. unfold build_base. rewrite (at_in _ _ _ Hath), (at_cur _ _ _ Hath).
    change (l_start h0) with "{"%ch. change (l_stop h0) with "}"%ch. destruct Hcb as [B1 B2].
    apply N.eqb_neq in B1, B2. rewrite B1, B2. rewrite !andb_false_r.
    replace (l_idx h0 =? 0)%nat with false by (symmetry; apply Nat.eqb_neq; exact Hx). cbn [andb].
    rewrite E1. reflexivity. }
  set (h1 := set_names _ _) in E2.
  assert (Hat1 : at_text h1 ("}"%ch :: r)) by (apply (at_adv_n h0 (c :: v) ("}"%ch :: r)); exact Hath).
  assert (E3 : next_own h1 KBase = Ok (tkc (set_tokpos h1 false) T_Eof,
      Lexer (set_names (set_tokpos h1 false) (update_names (l_names h1) T_Eof)) KBase None)).
  { unfold next_own. cbn [skip_ws]. rewrite (skip_ws_none h1 _ Hat1); try discriminate; [|left; discriminate].
    cbn [bind build]. unfold build_base. rewrite (at_in (set_tokpos h1 false) _ _ Hat1).
    rewrite (at_cur (set_tokpos h1 false) _ _ Hat1).
    change (l_start (set_tokpos h1 false)) with (l_start (advance_n (S (length v)) h0)).
    change (l_stop (set_tokpos h1 false)) with (l_stop (advance_n (S (length v)) h0)).
    change (l_depth (set_tokpos h1 false)) with (l_depth (advance_n (S (length v)) h0)).
    rewrite advance_n_stop, advance_n_start, advance_n_depth. reflexivity. }
  eexists [_; _], _. split; [|split].
  - eapply lemits_cons; [| |eapply lemits_cons; [| |apply lemits_nil]].
    + cbn [next_token]. fold h. rewrite E2. cbn [bind ty tkl].
      replace (is_eof (name_type (c :: v))) with false by (unfold name_type; destruct (between _ _ _); reflexivity). reflexivity.
    + cbn [ty tkl]. unfold name_type; destruct (between _ _ _); reflexivity.
    + cbn [next_token]. rewrite E3. cbn [bind ty tkc is_eof alters_parent lexer_cur].
      unfold next_own. cbn [skip_ws bind build build_str]. reflexivity.
    + reflexivity.
  - reflexivity.
  - set (g1 := set_tokpos (set_cur g _) false).
    assert (Hg1 : at_text g1 ("}"%ch :: r)).
    { destruct Hat1 as [W1 W2]. split; [exact (proj1 Hat)|].
      unfold rest in *. rewrite <- W2. unfold h1, g1. cbn [l_cur l_input set_tokpos set_cur set_names].
      replace (l_input (advance_n (S (length v)) h0)) with (l_input h0) by (rewrite (advance_n_frame _ h0); reflexivity). reflexivity. }
    pose proof (at_adv _ _ _ Hg1) as Hg2. split; [exact Hg2|]. repeat split; auto.
    cbn. unfold advance. destruct (_ =? ch_nl); cbn; lia.
Qed.

Lemma part_emits g0 g start stop et ps w r :
  delimiter_ok start stop -> body_before start stop ps "#"%ch -> plain_name w ->
  in_string start stop g0 g (body_text ps ++ ["#"; "{"]%ch ++ w ++ "}"%ch :: r) ->
  exists ts g', lemits (Lexer g (KStr InProgress et true) None) ts (Lexer g' (KStr InProgress et true) None)
    /\ shapes ts = content (body_bytes ps) ++ [(T_EvaluateToStringBegin, None); (name_type w, Some w); (T_EvaluateToStringEnd, None)]
    /\ in_string start stop g0 g' r.
Proof.
  intros (S1 & S2 & S3 & S4) Hok Hw Hin.
  set (g1 := set_tokpos g false).
  assert (Hin1 : in_string start stop g0 g1 (body_text ps ++ ["#"; "{"]%ch ++ w ++ "}"%ch :: r)) by exact Hin.
  set (g2 := advance_n (length (body_text ps)) g1).
  assert (Hin2 : in_string start stop g0 g2 ("#"%ch :: "{"%ch :: w ++ "}"%ch :: r)) by (apply in_string_adv; exact Hin1).
  set (g3 := advance_n 2 g2).
  assert (Hin3 : in_string start stop g0 g3 (w ++ "}"%ch :: r)) by (apply (in_string_adv _ _ _ _ ["#"; "{"]%ch); exact Hin2).
  assert (E : str_loop (loop_fuel g1) g1 et true [] =
    match body_bytes ps with
    | [] => str_start_evaluation g3 et true
    | _ => Ok (tkl g3 T_String (body_bytes ps), g3, KStr EvaluateBegin et true, None)
    end).
  { destruct Hin1 as (Hat & Hst & Hs0 & _). rewrite (at_fuel _ _ Hat), app_length. pose proof (body_len ps).
    cbn [app length]. set (m := length (w ++ _)).
    replace (S (S (length (body_text ps) + S (S m))))%nat with (length ps + S (S (S (S (length (body_text ps) - length ps + m)))))%nat by lia.
    rewrite (str_prefix start stop et true S1 S2 ps _ g1 [] _ Hat); auto. fold g2. cbn [str_loop app].
    destruct Hin2 as (Hat2 & Hst2 & _). rewrite (at_cur _ _ _ Hat2), (at_peek _ _ _ Hat2). cbn [hd].
    change ("#"%ch =? 0) with false. change ("#"%ch =? ch_bs) with false. cbn [andb]. reflexivity. }
  destruct (body_bytes ps) as [|b bs] eqn:Eb.
  - set (g4 := set_names g3 (update_names (l_names g3) T_EvaluateToStringBegin)).
    destruct (name_emits g0 g4 start stop et w r Hw) as (ts & g' & E1 & E2 & E3); [exact Hin3|].
    eexists (_ :: ts), g'. split; [|split; [|exact E3]].
    + eapply lemits_cons; [| |exact E1].
      * cbn [next_token]. unfold next_own. cbn [skip_ws bind build build_str]. fold g1. rewrite E. reflexivity.
      * reflexivity.
    + cbn [shapes map content app]. fold (shapes ts). rewrite E2. reflexivity.
  - set (g4 := set_names g3 (update_names (l_names g3) T_String)).
    set (g5 := set_names (set_tokpos g4 false) (update_names (l_names (set_tokpos g4 false)) T_EvaluateToStringBegin)).
    destruct (name_emits g0 g5 start stop et w r Hw) as (ts & g' & E1 & E2 & E3); [exact Hin3|].
    eexists (_ :: _ :: ts), g'. split; [|split; [|exact E3]].
    + eapply lemits_cons; [| |eapply lemits_cons; [| |exact E1]].
      * cbn [next_token]. unfold next_own. cbn [skip_ws bind build build_str]. fold g1. rewrite E. reflexivity.
      * reflexivity.
      * cbn [next_token]. unfold next_own. cbn [skip_ws bind build build_str]. reflexivity.
      * reflexivity.
    + cbn [shapes map content app]. fold (shapes ts). rewrite E2. reflexivity.
Qed.

Lemma parts_emits g0 start stop et xs : delimiter_ok start stop -> parts_ok start stop xs -> forall g r,
  in_string start stop g0 g (parts_text xs ++ r) ->
  exists ts g', lemits (Lexer g (KStr InProgress et true) None) ts (Lexer g' (KStr InProgress et true) None)
    /\ shapes ts = parts_shapes xs /\ in_string start stop g0 g' r.
Proof.
  intros Hd. induction xs as [|[ps w] xs IH]; intros Hok g r Hin.
  - exists [], g. split; [constructor|]. split; [reflexivity|exact Hin].
  - inversion Hok as [|? ? [H1 H2] Hok']; subst. cbn [fst snd] in *.
    unfold parts_text in Hin. cbn [map concat fst snd] in Hin. fold (parts_text xs) in Hin. rewrite <- !app_assoc in Hin.
    destruct (part_emits g0 g start stop et ps w (parts_text xs ++ r) Hd H1 H2 Hin) as (ts1 & g1 & E1 & E2 & E3).
    destruct (IH Hok' g1 r E3) as (ts2 & g2 & F1 & F2 & F3).
    exists (ts1 ++ ts2), g2. split; [eapply lemits_app; eauto|]. split; [|exact F3].
    unfold shapes in *. rewrite map_app, E2, F2. reflexivity.
Qed.

Theorem parts_source op a b bt et xs ps fuel :
  opening op a b bt et -> parts_ok a b xs -> body_ok a b ps ->
  (length (parts_shapes xs) + 4 <= fuel)%nat ->
  exists ts, tokens fuel (op ++ parts_text xs ++ body_text ps ++ [b]) = Ok ts
    /\ shapes ts = (bt, Some [a]) :: parts_shapes xs ++ content (body_bytes ps) ++ [(et, None); (T_Eof, None)].
Proof.
  intros Ho Hxs Hok Hf. set (s := op ++ parts_text xs ++ body_text ps ++ [b]).
  destruct (opening_ok _ _ _ _ _ Ho) as [Hdel He]. destruct (opening_simple _ _ _ _ _ Ho) as [Hs1 Hs2].
  destruct (opening_head _ _ _ _ _ Ho) as (c & w & Eo & N1 & N2 & N3 & N4).
  set (h0 := set_tokpos (new_lx s) false). assert (Hat0 : at_text h0 s) by apply at_new.
  pose proof (open_fwd h0 op a b bt et _ Ho Hat0 (in_code_new s) ltac:(discriminate)) as Hsw.
  set (g := advance_n (length op) h0) in *. pose proof (at_adv_n _ _ _ Hat0) as Hg. fold g in Hg.
  set (g0 := set_stop_char (set_start_char g (if a =? b then 0 else a)) b).
  assert (Hin : in_string a b g0 g0 (parts_text xs ++ body_text ps ++ [b])).
  { split; [exact Hg|]. split; [reflexivity|]. split; [cbn; destruct (a =? b); auto|].
    assert (Ei : l_idx g = (0 + length op)%nat) by (apply advance_n_idx).
    split; [|split; [reflexivity|]].
    - cbn. unfold g. rewrite advance_n_depth. reflexivity.
    - cbn. cbn in Ei. rewrite Ei, Eo. discriminate. }
  destruct (parts_emits g0 a b et xs Hdel Hxs g0 _ Hin) as (ts1 & g1 & E1 & E2 & E3).
  destruct (string_tail g0 g1 a b et ps [] He Hdel Hok E3) as (ts2 & g2 & F1 & F2 & F3 & F4).
  pose proof (lemits_app _ _ _ E1 _ _ F1) as G.
  destruct (lemits_lift _ _ _ G (set_last (set_names g (update_names (l_names g) bt)) (tkl g bt [a]))) as [t T].
  assert (Hemit : emits (Lexer (new_lx s) KBase None) (tkl g bt [a] :: ts1 ++ ts2)
    (Lexer (set_last (set_last (set_names g (update_names (l_names g) bt)) (tkl g bt [a])) t) KBase
      (Some (Lexer g2 (KStr Done et true) None)))).
  { eapply emits_step; [|exact T].
    apply (top_step _ (new_lx s) c (w ++ parts_text xs ++ body_text ps ++ [b])) with (1 := top_plain _); auto.
    replace (c :: w ++ parts_text xs ++ body_text ps ++ [b]) with s by (unfold s; rewrite Eo; reflexivity). apply at_new. }
  assert (Esh : shapes (ts1 ++ ts2) = parts_shapes xs ++ content (body_bytes ps) ++ [(et, None)])
    by (unfold shapes in *; rewrite map_app, E2, F2; reflexivity).
  assert (El : length (ts1 ++ ts2) = length (shapes (ts1 ++ ts2))) by (unfold shapes; rewrite map_length; reflexivity).
  destruct (emits_source s _ _ (set_cur (set_last (set_last (set_names g (update_names (l_names g) bt)) (tkl g bt [a])) t) (l_cur g2)) fuel Hemit)
    as (e & T1 & T2).
  - constructor; [exact Hs1|]. apply simple_shapes. rewrite Esh. apply Forall_app. split.
    + unfold parts_shapes. apply Forall_concat, Forall_map, Forall_forall. intros [qs n] _. cbn [fst snd].
      apply Forall_app. split; [destruct (body_bytes qs); repeat constructor|].
      constructor; [repeat split|]. constructor; [unfold name_type; destruct (between _ _ _); repeat split|]. repeat constructor.
    + apply Forall_app. split; [destruct (body_bytes ps); repeat constructor|]. repeat constructor; apply Hs2.
  - apply top_done. constructor.
  - destruct F3 as [W1 W2]. split; [exact (proj1 Hg)|]. unfold rest in *. cbn [l_cur l_input set_cur set_last set_names].
    rewrite F4 in W2. exact W2.
  - cbn [length]. rewrite El, Esh, !app_length. cbn [length]. destruct (body_bytes ps); cbn [content length]; lia.
  - eexists. split; [exact T2|]. cbn [shapes map app]. rewrite map_app. cbn [map]. rewrite T1.
    unfold shapes in Esh. rewrite Esh, <- !app_assoc. reflexivity.
Qed.

(** * LexText: the tokens of a text of lexical elements *)
From Coq Require Import Strings.String NArith ZArith Bool Arith List Lia ZifyBool ZifyNat ZifyN.
From Verif Require Import Base Token Spec SpecLit SpecLexeme SpecText LexModel LexBasics LexRest LexSwitch LexInv LexFwd LexNumbers LexQuoted LexHereSrc TokensProofs LexPunct LexLexeme.
Import ListNotations.
Open Scope N_scope.

(** ** What tokens() drops *)
Definition push (acc : list token) (t : token) : list token :=
  t :: (if closes_line (ty t) then pop_newlines acc else acc).
Definition strip (l : list token) : list token := rev (pop_newlines (rev l)).

Lemma newline_is t : is_newline t = newline t.
Proof. destruct t; reflexivity. Qed.
Lemma closes_line_is t : can_follow_collapsible_newline t = closes_line t.
Proof. destruct t; reflexivity. Qed.
Lemma opens_line_is t : can_precede_collapsible_newline t = opens_line t.
Proof. destruct t; reflexivity. Qed.

Lemma pop_app a b : pop_newlines (a ++ b) = match pop_newlines a with [] => pop_newlines b | c => c ++ b end.
Proof.
  induction a as [|t a IH]; [reflexivity|]. cbn [app pop_newlines]. destruct (is_newline (ty t)); [exact IH|reflexivity].
Qed.
Lemma strip_cons u l : strip (u :: l) = match strip l with [] => if newline (ty u) then [] else [u] | c => u :: c end.
Proof.
  unfold strip. cbn [rev]. rewrite pop_app. destruct (pop_newlines (rev l)) as [|c k] eqn:E.
  - cbn [rev pop_newlines]. rewrite newline_is. destruct (newline (ty u)); reflexivity.
  - rewrite rev_app_distr. cbn [rev app]. destruct (rev k ++ [c]) eqn:E2; [destruct (rev k); discriminate|reflexivity].
Qed.
Lemma strip_hd l c k : strip l = c :: k -> exists k', l = c :: k'.
Proof.
  destruct l as [|u l]; [discriminate|]. rewrite strip_cons. destruct (strip l).
  - destruct (newline (ty u)); intros H; inversion H; eauto.
  - intros H; inversion H; eauto.
Qed.
Lemma strip_none l : strip l = [] -> match l with u :: _ => newline (ty u) = true | [] => True end.
Proof.
  destruct l as [|u l]; [auto|]. rewrite strip_cons. destruct (strip l); [|discriminate]. destruct (newline (ty u)); [auto|discriminate].
Qed.
Lemma drop_before_snoc l t : drop_before (l ++ [t]) = (if closes_line (ty t) then strip (drop_before l) else drop_before l) ++ [t].
Proof.
  induction l as [|u l IH].
  - cbn [app drop_before]. rewrite andb_false_r. destruct (closes_line (ty t)); reflexivity.
  - cbn [app drop_before]. rewrite IH. clear IH. set (D := drop_before l).
    assert (Nn : forall x, newline x = true -> closes_line x = false) by (intros x; destruct x; try discriminate; reflexivity).
    destruct (closes_line (ty t)) eqn:Ct.
    + destruct (strip D) as [|c k] eqn:Es; cbn [app].
      * rewrite Ct, andb_true_r. destruct D as [|d D'] eqn:ED.
        -- rewrite andb_false_r, strip_cons. cbn [strip rev pop_newlines]. change (strip []) with (@nil token). destruct (newline (ty u)); reflexivity.
        -- pose proof (strip_none (d :: D') Es) as Hd. cbn in Hd. rewrite (Nn _ Hd), andb_false_r, strip_cons, Es.
           destruct (newline (ty u)); reflexivity.
      * destruct (strip_hd _ _ _ Es) as [k' Ek]. rewrite Ek. destruct (newline (ty u) && closes_line (ty c)).
        -- rewrite <- Ek, Es. reflexivity.
        -- rewrite strip_cons, <- Ek, Es. reflexivity.
    + destruct D as [|d D']; cbn [app].
      * rewrite Ct, !andb_false_r. reflexivity.
      * destruct (newline (ty u) && closes_line (ty d)); reflexivity.
Qed.
Lemma push_all ts : forall acc l, rev acc = drop_before l -> rev (fold_left push ts acc) = drop_before (l ++ ts).
Proof.
  induction ts as [|t ts IH]; intros acc l H; cbn [fold_left].
  - rewrite app_nil_r. exact H.
  - replace (l ++ t :: ts) with ((l ++ [t]) ++ ts) by (rewrite <- app_assoc; reflexivity). apply IH.
    rewrite drop_before_snoc, <- H. unfold push. cbn [rev]. unfold strip. rewrite rev_involutive. destruct (closes_line (ty t)); reflexivity.
Qed.

(** ** The kinds of tokens *)
Lemma lexeme_plain l t : sound l -> lexeme_type l = Some t ->
  is_valid t = true /\ t <> T_InterpolatedStringEnd /\ is_comment t = false /\ is_doc t = false /\ is_eof t = false /\ t <> T_AliasKeyword /\ t <> T_UndefKeyword.
Proof.
  set (ok := fun t => is_valid t && negb (ttype_eqb t T_InterpolatedStringEnd) && negb (is_comment t) && negb (is_doc t) && negb (is_eof t)
     && negb (ttype_eqb t T_AliasKeyword) && negb (ttype_eqb t T_UndefKeyword)).
  assert (Ok1 : ok t = true ->
    is_valid t = true /\ t <> T_InterpolatedStringEnd /\ is_comment t = false /\ is_doc t = false /\ is_eof t = false /\ t <> T_AliasKeyword /\ t <> T_UndefKeyword).
  { destruct t; try discriminate; intros _; repeat split; discriminate. }
  intros Hs Ht. unfold lexeme_type in Ht. destruct l; cbn [token_of option_map ty sound] in *; try (injection Ht as <-; apply Ok1; reflexivity); try discriminate.
  - injection Ht as <-. apply Ok1. unfold name_type. destruct (between _ _ _); reflexivity.
  - injection Ht as ->. destruct Hs as (Hin & H1 & H2). apply Ok1.
    assert (A : forallb (fun p => ok (snd p) || ttype_eqb (snd p) T_AliasKeyword || ttype_eqb (snd p) T_UndefKeyword) reserved = true) by reflexivity.
    rewrite forallb_forall in A. specialize (A _ Hin). cbn [snd] in A. rewrite (ttype_neq _ _ H1), (ttype_neq _ _ H2), !orb_false_r in A. exact A.
  - injection Ht as <-. apply Ok1. unfold int_token, number_token. destruct (_ <=? _); reflexivity.
  - injection Ht as ->. apply Ok1.
    assert (A : forallb (fun p => ok (snd p)) punctuation = true) by reflexivity.
    rewrite forallb_forall in A. exact (A _ Hs).
  - destruct Hs as (k & Hk & _). rewrite Hk in Ht. injection Ht as <-. apply Ok1. unfold number_token. destruct (_ <=? _); reflexivity.
Qed.

Lemma token_of_type l line col ws t : token_of l line col ws = Some t -> lexeme_type l = Some (ty t).
Proof.
  unfold lexeme_type. destruct l; cbn [token_of option_map]; intros H; try (injection H as <-; reflexivity); try discriminate.
  - injection H as <-. unfold int_token, number_token. destruct (_ <=? _); reflexivity.
  - destruct (radix_of mark); injection H as <-; cbn [option_map]; [|reflexivity]. unfold number_token. destruct (_ <=? _); reflexivity.
Qed.
Lemma token_of_none l line col ws : token_of l line col ws = None -> lexeme_type l = None.
Proof. unfold lexeme_type. destruct l; cbn [token_of option_map]; intros H; try discriminate; [reflexivity|]. destruct (radix_of mark); discriminate. Qed.

(** ** One step *)
(** [m] tells interpolated code, with so many braces open, from other code. *)
Definition opened (m : depth) : N := match m with None => 0 | Some _ => "{"%ch end.
Definition closed (m : depth) : N := match m with None => 0 | Some _ => "}"%ch end.
Definition deep (m : depth) : nat := match m with None => 0 | Some d => d end.
Record state (src : str) (i : nat) (f : lx) (p : place) (m : depth) : Prop := {
  st_input : l_input f = src; st_size : l_size f = length src; st_cur : l_cur f = pos_of src i;
  st_heredocs : l_heredocs f = []; st_start : l_start f = opened m; st_stop : l_stop f = closed m; st_depth : l_depth f = deep m;
  st_here : here f p }.

Lemma state_at src i f p m w : state src i f p m -> skipn i src = w -> at_text f w.
Proof. intros [H1 H2 H3 _ _ _ _ _] E. split; [unfold wf; congruence|]. unfold rest. rewrite H1, H3. exact E. Qed.

Lemma names_step n t p keep : n_sep n = T_Invalid -> n_rem n = (if naming p then 1 else 0) -> n_allow n = setter p ->
  t <> T_AliasKeyword -> t <> T_UndefKeyword -> keep = naming p && setter p ->
  n_rem (update_names n t) = (if names_next t then 1 else 0) /\ n_sep (update_names n t) = T_Invalid /\
  n_allow (update_names n t) = match t with T_DefKeyword | T_ConstantResolution => true | T_Dot => setter p | _ => keep end.
Proof.
  intros H1 H2 H3 H4 H5 ->. unfold update_names. rewrite H1, H2, H3.
  assert (D : forall x, t <> T_AliasKeyword -> t <> T_UndefKeyword ->
    x = (if negb (ttype_eqb T_Invalid T_Invalid) then (if n_last n then if negb (ttype_eqb t T_Invalid) then Names 0 (setter p) T_Invalid false
          else Names (if naming p then 1 else 0) (setter p) T_Invalid false else Names (if naming p then 1 else 0) (setter p) T_Invalid (is_valid t))
        else if 0 <? (if naming p then 1 else 0) then Names ((if naming p then 1 else 0) - 1) (setter p) T_Invalid (n_last n)
        else Names (if naming p then 1 else 0) false T_Invalid (n_last n)) ->
    n_rem x = 0 /\ n_sep x = T_Invalid /\ n_allow x = naming p && setter p).
  { intros x _ _ ->. change (ttype_eqb T_Invalid T_Invalid) with true. cbn [negb]. destruct (naming p); repeat split. }
  destruct t; try congruence; try (apply D; [discriminate|discriminate|reflexivity]); repeat split.
Qed.

Lemma read_pos src i f n f' : l_input f = src -> l_size f = length src -> l_cur f = pos_of src i -> read f n f' ->
  l_cur f' = pos_of src (i + n).
Proof.
  intros H1 H2 H3 [_ _ H _ _ _ _ _ _]. rewrite H. rewrite (pos_advance_n src n f H1).
  - rewrite H3. reflexivity.
  - unfold wf. congruence.
  - rewrite H3. reflexivity.
Qed.

Lemma skipn_add {A} (n m : nat) : forall l : list A, skipn (n + m) l = skipn n (skipn m l).
Proof.
  induction m as [|m IH]; intros l; [rewrite Nat.add_0_r; reflexivity|].
  destruct l as [|a l]; [rewrite !skipn_nil; reflexivity|]. rewrite Nat.add_succ_r. cbn [skipn]. apply IH.
Qed.

(** Which elements open and close braces. *)
Lemma brace_start l r c w : sound l -> spelling l ++ r = c :: w ->
  match l with
  | L_punct _ t => (t = T_LCurlyBrace /\ c = "{"%ch) \/ (t = T_RCurlyBrace /\ c = "}"%ch) \/
      (t <> T_LCurlyBrace /\ t <> T_RCurlyBrace /\ c <> "{"%ch /\ c <> "}"%ch)
  | _ => c <> "{"%ch /\ c <> "}"%ch
  end.
Proof.
  intros Hs E.
  assert (W : forall u x, word u -> u ++ x = c :: w -> c <> "{"%ch /\ c <> "}"%ch).
  { intros u x (d & v & -> & Hc & _) Eu. injection Eu as -> _. unfold ident_start in Hc. lia. }
  assert (D : forall ds txt x, decimals ds txt -> txt ++ x = c :: w -> c <> "{"%ch /\ c <> "}"%ch).
  { intros ds txt x Hd Eu. destruct (decimals_digits _ _ Hd) as [H1 H2]. destruct (separated_head _ _ _ H1 H2) as (d & ds' & t & E1 & E2 & E3).
    subst txt. injection Eu as -> _. unfold isdigit, between in E3. lia. }
  destruct l; cbn [sound spelling] in *; try rewrite <- !app_assoc in E;
    try (cbn [app] in E; injection E as <- _; split; discriminate).
  all: try (eapply W; [exact (proj1 Hs)|exact E]).
  all: try (eapply D; [exact (proj1 Hs)|exact E]).
  - destruct Hs as [Hs _].
    assert (A : forallb (fun p => match fst p with c :: _ => negb (c =? "{"%ch) && negb (c =? "}"%ch) | [] => false end) reserved = true) by reflexivity.
    rewrite forallb_forall in A. specialize (A _ Hs). cbn [fst] in A. destruct w0 as [|d u]; [discriminate|]. injection E as -> _. lia.
  - assert (A : forallb (fun p => match fst p with
        | c :: _ => (ttype_eqb (snd p) T_LCurlyBrace && (c =? "{"%ch)) || (ttype_eqb (snd p) T_RCurlyBrace && (c =? "}"%ch)) ||
            (negb (ttype_eqb (snd p) T_LCurlyBrace) && negb (ttype_eqb (snd p) T_RCurlyBrace) && negb (c =? "{"%ch) && negb (c =? "}"%ch))
        | [] => false end) punctuation = true) by reflexivity.
    rewrite forallb_forall in A. specialize (A _ Hs). cbn [fst snd] in A. destruct w0 as [|d u]; [discriminate|]. injection E as -> _.
    apply orb_prop in A. destruct A as [A|A]; [apply orb_prop in A; destruct A as [A|A]|].
    + left. apply andb_prop in A. destruct A as [A1 A2]. apply ttype_eqb_iff in A1. apply N.eqb_eq in A2. auto.
    + right; left. apply andb_prop in A. destruct A as [A1 A2]. apply ttype_eqb_iff in A1. apply N.eqb_eq in A2. auto.
    + right; right. apply andb_prop in A. destruct A as [A A4]. apply andb_prop in A. destruct A as [A A3]. apply andb_prop in A. destruct A as [A1 A2].
      repeat split; try (intros E; subst; discriminate); lia.
Qed.

Lemma set_depth_same f : set_depth f (l_depth f) = f.
Proof. destruct f; reflexivity. Qed.
Lemma brace_build g m m' l r c w : at_text g (c :: w) -> sound l -> spelling l ++ r = c :: w -> braces m (E_word l) = Some m' ->
  l_start g = opened m -> l_stop g = closed m -> l_depth g = deep m -> (c <> 0xEF \/ l_idx g <> 0%nat) ->
  build_base g = lex_switch (set_depth g (deep m')) /\ opened m' = opened m /\ closed m' = closed m.
Proof.
  intros Hat Hs Ec Hm G1 G2 G3 Hb. destruct m as [d|].
  - cbn [opened closed deep] in *. unfold build_base. rewrite (at_in _ _ _ Hat), (at_cur _ _ _ Hat), G1, G2, G3.
    change (negb ("{"%ch =? 0)) with true. change (negb ("}"%ch =? 0)) with true. cbn [andb].
    pose proof (brace_start l r c w Hs Ec) as Hbr.
    assert (Hno : c <> "{"%ch /\ c <> "}"%ch -> m' = Some d ->
      (if c =? "{"%ch then lex_switch (set_depth g (S d))
       else if c =? "}"%ch then match d with 0%nat => Ok (tkc g T_Eof, g, None) | S d => lex_switch (set_depth g d) end
       else if (l_idx g =? 0)%nat && (c =? 239) then
         lex_switch (if current_char (if current_char (advance g) =? 187 then advance (advance g) else advance g) =? 191
            then advance (if current_char (advance g) =? 187 then advance (advance g) else advance g)
            else if current_char (advance g) =? 187 then advance (advance g) else advance g)
       else lex_switch g) = lex_switch (set_depth g (deep m')) /\ opened m' = "{"%ch /\ closed m' = "}"%ch).
    { intros [N1 N2] ->. apply N.eqb_neq in N1, N2. rewrite N1, N2. cbn [opened closed deep]. split; [|auto].
      rewrite <- G3, set_depth_same. destruct Hb as [Hb|Hb].
      - apply N.eqb_neq in Hb. rewrite Hb, andb_false_r. reflexivity.
      - apply Nat.eqb_neq in Hb. rewrite Hb. reflexivity. }
    destruct l; try (apply Hno; [exact Hbr|destruct d; cbn [braces] in Hm; congruence]).
    destruct Hbr as [[-> ->]|[[-> ->]|(T1 & T2 & T3)]].
    + assert (m' = Some (S d)) by (destruct d; cbn [braces] in Hm; congruence). subst m'. repeat split.
    + cbn [braces] in Hm. destruct d as [|d]; [discriminate|]. injection Hm as <-. repeat split.
    + apply Hno; [exact T3|]. destruct d; cbn [braces] in Hm; destruct t; congruence.
  - assert (m' = None) by (cbn [braces] in Hm; congruence). subst m'. cbn [opened closed deep] in *. split; [|auto].
    rewrite (build_base_top g c w Hat G1 G2 Hb), <- G3, set_depth_same. reflexivity.
Qed.

Lemma step src i f L p m m' b l more : state src i f p m -> top L f -> skipn i src = b ++ spelling l ++ more -> blanks b -> sound l ->
  fits p (blank_before b) l more -> braces m (E_word l) = Some m' -> hd 0 src <> 0xEF ->
  exists f', next_token L =
      Ok (raw_of l (line_of src (i + length b)) (col_of src (i + length b)) (blank_before b), Lexer f' KBase None) /\
    skipn (i + length b + length (spelling l)) src = more /\
    (forall t, is_valid (ty t) = true -> state src (i + length b + length (spelling l)) (set_last f' t)
       (Place (ty t) (naming (behind p l)) (setter (behind p l))) m') /\
    state src (i + length b + length (spelling l)) f' (Place (prev p) (naming (behind p l)) (setter (behind p l))) m'.
Proof.
  intros St Htop Ei Hb Hs Hf Hm Hbom. pose proof (state_at _ _ _ _ _ _ St Ei) as Hat. destruct St as [S1 S2 S3 S4 S5 S6 S8 S7].
  destruct (spelling_start l more Hs) as (c & w & Ec & C1 & C2 & C3).
  assert (Hsk : skip_whitespace f = Ok (blank_before b, advance_n (length b) f)).
  { unfold skip_whitespace. rewrite (skip_blanks b Hb f (spelling l ++ more)); auto; try (rewrite Ec; assumption).
    rewrite (at_fuel _ _ Hat), app_length. lia. }
  set (g0 := set_tokpos (advance_n (length b) f) (blank_before b)). set (g := set_depth g0 (deep m')).
  assert (Hg0 : at_text g0 (spelling l ++ more)) by (apply at_tokpos, at_adv_n, Hat).
  assert (Hg : at_text g (spelling l ++ more)) by exact Hg0.
  assert (Gi : l_input g = src) by (unfold g, g0; cbn [set_tokpos set_depth l_input]; rewrite advance_n_input; exact S1).
  assert (Gs : l_size g = length src) by (unfold g, g0; cbn [set_tokpos set_depth l_size]; rewrite (advance_n_frame (length b) f); exact S2).
  assert (Gc : l_cur g = pos_of src (i + length b)).
  { unfold g, g0. cbn [set_tokpos set_depth l_cur]. apply (read_pos src i f _ _ S1 S2 S3). apply read_n. }
  assert (Gp : l_tline g = line_of src (i + length b) /\ l_tcol g = col_of src (i + length b) /\ l_ws g = blank_before b).
  { unfold g, g0 in *. cbn [set_tokpos set_depth l_tline l_tcol l_ws l_cur] in *. rewrite Gc. auto. }
  destruct Gp as (Gp1 & Gp2 & Gp3).
  assert (Gl : l_last g = l_last f /\ l_names g = l_names f /\ l_heredocs g = [] /\ l_start g = opened m /\ l_stop g = closed m /\ l_depth g0 = deep m).
  { unfold g, g0. cbn [set_tokpos set_depth l_last l_names l_heredocs l_start l_stop l_depth]. rewrite (advance_n_frame (length b) f). auto 8. }
  destruct Gl as (Gl1 & Gl2 & Gl3 & Gl4 & Gl5 & Gl6).
  assert (Gh : here g p) by (destruct S7; constructor; rewrite ?Gl1, ?Gl2; assumption).
  assert (Hr : reads g (spelling l) (raw_of l (l_tline g) (l_tcol g) (l_ws g))).
  { apply (lexeme_fwd g l more p); auto. }
  rewrite Gp1, Gp2, Gp3 in Hr. destruct Hr as (h & Hl & Hh). set (tk := raw_of _ _ _ _) in *.
  assert (Hty : ty tk <> T_AliasKeyword /\ ty tk <> T_UndefKeyword /\
     match lexeme_type l with Some t => ty tk = t | None => ty tk = T_Comment end).
  { unfold tk, raw_of. destruct (token_of l _ _ _) as [t|] eqn:E.
    - pose proof (token_of_type _ _ _ _ _ E) as E2. rewrite E2. destruct (lexeme_plain l _ Hs E2) as (_ & _ & _ & _ & _ & A & B). auto.
    - rewrite (token_of_none _ _ _ _ E). repeat split; discriminate. }
  destruct Hty as (Ht1 & Ht2 & Ht3).
  assert (Hb2 : build_base g0 = Ok (tk, h, None) /\ opened m' = opened m /\ closed m' = closed m).
  { rewrite Ec in Hg0. destruct (brace_build g0 m m' l more c w Hg0 Hs Ec Hm Gl4 Gl5 Gl6) as (B1 & B2 & B3); [|rewrite B1; auto].
    change (l_idx g0) with (l_idx g). destruct (Nat.eq_dec (l_idx g) 0) as [E|E]; [left|right; exact E].
    rewrite Gc in E. cbn [pos_of c_idx] in E. assert (i = 0%nat) by lia. assert (b = []) by (destruct b; [reflexivity|cbn [length] in E; lia]). subst i b.
    cbn [skipn app] in Ei. rewrite Ei, Ec in Hbom. exact Hbom. }
  destruct Hb2 as (Hb2 & Hm1 & Hm2).
  set (f' := set_names h (update_names (l_names h) (ty tk))).
  assert (Hnext : next_token L = Ok (tk, Lexer f' KBase None)).
  { rewrite (top_next _ _ Htop). unfold next_own. cbn [skip_ws]. rewrite Hsk. cbn [bind build]. fold g0. rewrite Hb2. reflexivity. }
  pose proof (read_pos _ _ _ _ _ Gi Gs Gc Hh) as Hpos.
  destruct Hh as [R1 R2 R3 R4 R5 R6 R7 R8 R9]. change (l_depth g) with (deep m') in R9. destruct Gh as [P1 P2 P3 P4 P5].
  pose proof (names_step (l_names h) (ty tk) p (naming p && setter p)) as Hn. rewrite R6 in Hn. specialize (Hn P5 P3 P4 Ht1 Ht2 eq_refl).
  destruct Hn as (N1 & N2 & N3).
  assert (Hnam : n_rem (l_names f') = (if naming (behind p l) then 1 else 0) /\ n_allow (l_names f') = setter (behind p l) /\ n_sep (l_names f') = T_Invalid).
  { unfold f'. cbn [set_names l_names]. rewrite R6, N1, N2, N3. unfold behind. destruct (lexeme_type l) as [t|]; rewrite Ht3; cbn [naming setter]; auto. }
  destruct Hnam as (M1 & M2 & M3).
  exists f'. split; [exact Hnext|]. split; [|split].
  - rewrite <- Nat.add_assoc. replace (i + (length b + length (spelling l)))%nat with (length (b ++ spelling l) + i)%nat by (rewrite app_length; clear; lia).
    rewrite skipn_add, Ei. rewrite app_assoc. rewrite skipn_app, skipn_all, Nat.sub_diag. reflexivity.
  - intros t Ev. constructor; unfold f'; cbn [set_last set_names l_input l_size l_cur l_heredocs l_start l_stop l_depth]; try congruence.
    constructor; cbn [set_last l_last l_names prev naming setter]; auto.
  - constructor; unfold f'; cbn [set_names l_input l_size l_cur l_heredocs l_start l_stop l_depth]; try congruence.
    constructor; cbn [prev naming setter]; auto. unfold f'. cbn [set_names l_last]. rewrite R5. exact P1.
Qed.

(** ** The whole text *)
Lemma text_end src i f L p tail fuel acc : state src i f p None -> top L f -> skipn i src = tail -> blanks tail -> (i + length tail = length src)%nat ->
  tokens_loop (S fuel) L acc (opens_line (prev p)) None = Ok (rev acc ++ [end_token src tail]).
Proof.
  intros St Htop Ei Hb Hlen. pose proof (state_at _ _ _ _ _ _ St Ei) as Hat. destruct St as [S1 S2 S3 S4 S5 S6 S8 S7].
  assert (Hat' : at_text f (tail ++ [])) by (rewrite app_nil_r; exact Hat).
  assert (Hsk : skip_whitespace f = Ok (blank_before tail, advance_n (length tail) f)).
  { unfold skip_whitespace. rewrite (skip_blanks tail Hb f [] _ false Hat'); try discriminate; [reflexivity|].
    rewrite (at_fuel _ _ Hat). lia. }
  pose proof (at_tokpos _ (blank_before tail) _ (at_adv_n _ _ _ Hat')) as Hg.
  assert (Gc : l_cur (advance_n (length tail) f) = pos_of src (length src)).
  { rewrite <- Hlen. apply (read_pos src i f _ _ S1 S2 S3). apply read_n. }
  erewrite loop_end; cycle 1.
  { rewrite (top_next _ _ Htop). unfold next_own. cbn [skip_ws]. rewrite Hsk. cbn [bind build]. unfold build_base. rewrite (at_out _ Hg). reflexivity. }
  { reflexivity. }
  cbn [rev]. f_equal. f_equal. unfold tkc. cbn [set_tokpos l_cur l_ws]. rewrite Gc. reflexivity.
Qed.

Lemma text_run tail src : hd 0 src <> 0xEF -> forall items i f p fuel acc,
  state src i f p None -> skipn i src = written items tail -> (i <= length src)%nat -> fine p items tail -> (length items < fuel)%nat ->
  tokens_loop fuel (Lexer f KBase None) acc (opens_line (prev p)) None =
    Ok (rev (fold_left push (drop_after (prev p) (raw_tokens src i items)) acc) ++ [end_token src tail]).
Proof.
  intros Hbom. induction items as [|[b l] more IH]; intros i f p fuel acc St Ei Hi Hfine Hfuel; (destruct fuel as [|fuel]; [cbn [length] in Hfuel; lia|]).
  - cbn [written raw_tokens drop_after fold_left fine] in *. eapply text_end; eauto using top_plain.
    assert (E : length (skipn i src) = length tail) by congruence. rewrite skipn_length in E. lia.
  - cbn [written raw_tokens fine] in *. destruct Hfine as (Hb & Hs & Hfits & Hmore).
    destruct (step src i f _ p None None b l (written more tail) St (top_plain f) Ei Hb Hs Hfits eq_refl Hbom) as (f' & Hnext & Ei' & Hlast & Hkeep).
    set (j := (i + length b)%nat) in *. set (n := (j + length (spelling l))%nat) in *.
    assert (Hn : (n <= length src)%nat).
    { assert (E : length (skipn i src) = length (b ++ spelling l ++ written more tail)) by congruence.
      rewrite skipn_length, !app_length in E. unfold n, j. lia. }
    unfold raw_of in Hnext. cbn [length] in Hfuel.
    destruct (token_of l (line_of src j) (col_of src j) (blank_before b)) as [t|] eqn:Et.
    + pose proof (token_of_type _ _ _ _ _ Et) as Ety. destruct (lexeme_plain l _ Hs Ety) as (V1 & V2 & V3 & V4 & V5 & _ & _).
      cbn [app drop_after]. cbn [tokens_loop]. rewrite Hnext. cbn [bind]. rewrite V3, V4, newline_is, andb_comm.
      assert (Eb : behind p l = Place (if newline (ty t) && opens_line (prev p) then prev p else ty t) (naming (behind p l)) (setter (behind p l))).
      { unfold behind. rewrite Ety. reflexivity. }
      destruct (newline (ty t) && opens_line (prev p)) eqn:En.
      * rewrite Eb in Hmore. change (prev p) with (prev (Place (prev p) (naming (behind p l)) (setter (behind p l)))).
        apply (IH n); auto. lia.
      * rewrite V5, V1, closes_line_is, opens_line_is. cbn [negb]. cbn [fold_left record_last].
        pose proof (Hlast t V1) as Hst. rewrite Eb in Hmore.
        change (ty t) with (prev (Place (ty t) (naming (behind p l)) (setter (behind p l)))) at 2 3.
        change (t :: (if closes_line (ty t) then pop_newlines acc else acc)) with (push acc t).
        apply (IH n); auto. lia.
    + pose proof (token_of_none _ _ _ _ Et) as Ety. cbn [app]. cbn [tokens_loop]. rewrite Hnext. cbn [bind ty is_comment].
      change (is_comment T_Comment) with true. cbv iota.
      assert (Eb : behind p l = Place (prev p) (naming (behind p l)) (setter (behind p l))) by (unfold behind; rewrite Ety; reflexivity).
      rewrite Eb in Hmore. change (prev p) with (prev (Place (prev p) (naming (behind p l)) (setter (behind p l)))).
      apply (IH n); auto. lia.
Qed.

Theorem text_tokens items tail fuel : fine start items tail -> hd 0 (written items tail) <> 0xEF -> (length items < fuel)%nat ->
  tokens fuel (written items tail) = Ok (tokens_of items tail).
Proof.
  intros Hf Hb Hn. unfold tokens. set (src := written items tail) in *.
  pose proof (text_run tail src Hb items 0 (new_lx src) start fuel []) as H.
  change (opens_line (prev start)) with false in H. rewrite H; auto.
  - unfold tokens_of. fold src. f_equal. f_equal. apply (push_all _ [] []). reflexivity.
  - constructor; try reflexivity. constructor; try reflexivity. left. reflexivity.
  - lia.
Qed.

(** ** Layout does not matter *)
Definition same (t u : token) : Prop := value t = value u.
Lemma same_ty t u : same t u -> ty t = ty u.
Proof. intros H. exact (f_equal (fun v => fst (fst (fst (fst v)))) H). Qed.
Lemma token_of_same l a b c a' b' c' :
  match token_of l a b c, token_of l a' b' c' with Some t, Some u => same t u | None, None => True | _, _ => False end.
Proof. destruct l; cbn [token_of]; try reflexivity; try exact I; [|destruct (radix_of mark); [|reflexivity]]; unfold int_token, number_token; destruct (_ <=? _); reflexivity. Qed.
Lemma raw_silent src i b l more : heard l = false -> raw_tokens src i ((b, l) :: more) = raw_tokens src (i + length b + length (spelling l)) more.
Proof. destruct l; try discriminate. reflexivity. Qed.
Lemma raw_heard l line col ws : heard l = true -> exists t, token_of l line col ws = Some t.
Proof. destruct l; try discriminate; cbn [token_of]; eauto. destruct (radix_of mark); eauto. Qed.

Lemma raw_none src items : forall i, filter heard (map snd items) = [] -> raw_tokens src i items = [].
Proof.
  induction items as [|[b l] more IH]; intros i H; [reflexivity|]. cbn [map snd filter] in H. destruct (heard l) eqn:E; [discriminate|].
  rewrite raw_silent by exact E. apply IH. exact H.
Qed.
Lemma raw_first src items : forall i l ls, filter heard (map snd items) = l :: ls ->
  exists j b more, raw_tokens src i items = raw_tokens src j ((b, l) :: more) /\ filter heard (map snd more) = ls /\ heard l = true.
Proof.
  induction items as [|[b k] more IH]; intros i l ls H; [discriminate|]. cbn [map snd filter] in H. destruct (heard k) eqn:E.
  - injection H as E1 E2; subst k ls. exists i, b, more. auto.
  - destruct (IH (i + length b + length (spelling k))%nat l ls H) as (j & b' & more' & H1 & H2 & H3).
    exists j, b', more'. rewrite raw_silent by exact E. auto.
Qed.
Lemma raw_same src src' ls : forall items items' i i', filter heard (map snd items) = ls -> filter heard (map snd items') = ls ->
  Forall2 same (raw_tokens src i items) (raw_tokens src' i' items').
Proof.
  induction ls as [|l ls IH]; intros items items' i i' H H'.
  - rewrite (raw_none _ _ _ H), (raw_none _ _ _ H'). constructor.
  - destruct (raw_first src _ i _ _ H) as (j & b & more & E1 & E2 & E3). destruct (raw_first src' _ i' _ _ H') as (j' & b' & more' & E1' & E2' & E3').
    rewrite E1, E1'. cbn [raw_tokens].
    pose proof (token_of_same l (line_of src (j + length b)) (col_of src (j + length b)) (blank_before b)
      (line_of src' (j' + length b')) (col_of src' (j' + length b')) (blank_before b')) as Hs.
    destruct (raw_heard l (line_of src (j + length b)) (col_of src (j + length b)) (blank_before b) E3) as [t Et]. rewrite Et in *.
    destruct (raw_heard l (line_of src' (j' + length b')) (col_of src' (j' + length b')) (blank_before b') E3) as [u Eu]. rewrite Eu in *.
    cbn [app]. constructor; [exact Hs|]. apply IH; assumption.
Qed.
Lemma drop_after_same a b : Forall2 same a b -> forall p, Forall2 same (drop_after p a) (drop_after p b).
Proof.
  induction 1 as [|t u a b Ht H IH]; intros p; cbn [drop_after]; [constructor|]. rewrite (same_ty _ _ Ht).
  destruct (_ && _); [apply IH|]. constructor; [exact Ht|]. apply IH.
Qed.
Lemma drop_before_same a b : Forall2 same a b -> Forall2 same (drop_before a) (drop_before b).
Proof.
  induction 1 as [|t u a b Ht H IH]; cbn [drop_before]; [constructor|]. rewrite (same_ty _ _ Ht).
  destruct IH as [|x y k m Hx Hk]; [rewrite !andb_false_r; repeat constructor; exact Ht|].
  rewrite (same_ty _ _ Hx). destruct (_ && _); repeat constructor; auto.
Qed.
Lemma text_layout items tail items' tail' : filter heard (map snd items) = filter heard (map snd items') ->
  map value (tokens_of items tail) = map value (tokens_of items' tail').
Proof.
  intros H. unfold tokens_of. rewrite !map_app. f_equal.
  assert (F : forall a b, Forall2 same a b -> map value a = map value b).
  { induction 1 as [|t u a b Ht _ IH]; [reflexivity|]. cbn [map]. rewrite IH. f_equal. exact Ht. }
  apply F, drop_before_same, drop_after_same. eapply raw_same; eauto.
Qed.

(** * LexQuoted: reading quoted literals forward *)
From Coq Require Import Strings.String NArith ZArith Bool Arith List Lia ZifyBool ZifyNat ZifyN.
From Verif Require Import Base Token Spec SpecLit LexModel LexBasics LexRest LexInv LexFwd LexString TokensProofs.
Import ListNotations.
Open Scope N_scope.

(** ** Streams of tokens *)

(** [emits l ts l']: the lexer gives the tokens [ts], each recorded as the last token. *)
Inductive emits : lexer -> list token -> lexer -> Prop :=
| emits_nil l : emits l [] l
| emits_cons l t l1 ts l2 : next_token l = Ok (t, l1) -> emits (record_last l1 t) ts l2 -> emits l (t :: ts) l2.

Lemma emits_step l t f k n ts l2 :
  next_token l = Ok (t, Lexer f k n) -> emits (Lexer (set_last f t) k n) ts l2 -> emits l (t :: ts) l2.
Proof. intros H1 H2. eapply emits_cons; eauto. Qed.
Lemma emits_app l1 ts1 l2 : emits l1 ts1 l2 -> forall ts2 l3, emits l2 ts2 l3 -> emits l1 (ts1 ++ ts2) l3.
Proof. induction 1; intros; [assumption|]. cbn [app]. eapply emits_cons; eauto. Qed.

(** Tokens that [tokens()] just appends. *)
Definition simple (t : token) : Prop :=
  is_comment (ty t) = false /\ is_doc (ty t) = false /\ is_newline (ty t) = false /\ is_eof (ty t) = false
  /\ is_valid (ty t) = true.
Definition no_newline_last (acc : list token) : Prop :=
  match acc with t :: _ => is_newline (ty t) = false | [] => True end.
Lemma pop_none acc : no_newline_last acc -> pop_newlines acc = acc.
Proof. destruct acc as [|t acc]; [reflexivity|]. cbn. intros ->. reflexivity. Qed.

Lemma emits_tokens l ts l' : emits l ts l' -> Forall simple ts -> forall fuel acc skip, no_newline_last acc ->
  exists skip', tokens_loop (length ts + fuel) l acc skip None = tokens_loop fuel l' (rev ts ++ acc) skip' None.
Proof.
  induction 1 as [l|l t l1 ts l2 H1 H2 IH]; intros Hs fuel acc skip Ha; [exists skip; reflexivity|].
  inversion Hs as [|? ? (S1 & S2 & S3 & S4 & S5) Hs']; subst.
  cbn [length Nat.add tokens_loop]. rewrite H1. cbn [bind]. rewrite S1, S2, S3, andb_false_r.
  replace (if can_follow_collapsible_newline (ty t) then pop_newlines acc else acc) with acc
    by (rewrite (pop_none acc Ha); destruct (can_follow_collapsible_newline (ty t)); reflexivity).
  rewrite S4, S5. cbn [negb].
  destruct (IH Hs' fuel (t :: acc) (can_precede_collapsible_newline (ty t)) S3) as [sk E].
  exists sk. rewrite E. cbn [rev]. rewrite <- app_assoc. reflexivity.
Qed.

Inductive finished : kind -> Prop :=
| fin_str et : finished (KStr Done et true)
| fin_regexp opts : finished (KRegexp Done opts)
| fin_words it start d buf : finished (KWords W_Done it start d buf).
(** The lexer works at top level and stands at [h]: either nothing is nested or the
    nested literal has ended. *)
Inductive top : lexer -> lx -> Prop :=
| top_plain h : top (Lexer h KBase None) h
| top_done f g k : finished k -> top (Lexer f KBase (Some (Lexer g k None))) (set_cur f (l_cur g)).

Lemma top_next l h : top l h -> next_token l = next_own h KBase.
Proof. intros [|f g k [et|opts|it start d buf]]; reflexivity. Qed.

Lemma top_record l h t : top l h -> exists h', top (record_last l t) h' /\ h' = set_last h t.
Proof. intros [f|f g k Hk]; cbn [record_last]; eexists; split; try constructor; auto. Qed.

(** At the end of the text the stream ends. *)
Lemma top_end l h fuel acc skip : top l h -> at_text h [] ->
  exists t, shape t = (T_Eof, None) /\ tokens_loop (S fuel) l acc skip None = Ok (rev acc ++ [t]).
Proof.
  intros Ht Hg. cbn [tokens_loop]. rewrite (top_next _ _ Ht).
  unfold next_own. cbn [skip_ws]. rewrite (skip_ws_none _ _ Hg); try discriminate; [|left; discriminate].
  cbn [bind build]. unfold build_base.
  assert (Hg' : at_text (set_tokpos h false) []) by (apply at_tokpos; exact Hg).
  rewrite (at_out _ Hg'). cbn [bind ty tkc is_comment is_doc is_newline is_eof].
  rewrite andb_false_r.
  change (can_follow_collapsible_newline (ty (tkc (set_tokpos h false) T_Eof))) with false.
  eexists. split; [|reflexivity]. reflexivity.
Qed.

Lemma emits_source s ts l' h fuel :
  emits (Lexer (new_lx s) KBase None) ts l' -> Forall simple ts -> top l' h -> at_text h [] ->
  (length ts < fuel)%nat ->
  exists t, shape t = (T_Eof, None) /\ tokens fuel s = Ok (ts ++ [t]).
Proof.
  intros He Hs Ht Ha Hf. unfold tokens.
  destruct (emits_tokens _ _ _ He Hs (fuel - length ts) [] false I) as [sk E].
  replace (length ts + (fuel - length ts))%nat with fuel in E by lia. rewrite E.
  replace (fuel - length ts)%nat with (S (fuel - length ts - 1)) by lia.
  destruct (top_end l' h (fuel - length ts - 1) (rev ts ++ []) sk Ht Ha) as (t & T1 & T2).
  exists t. split; [exact T1|]. rewrite T2, app_nil_r, rev_involutive. reflexivity.
Qed.

(** One own token of a top-level lexer. *)
Lemma top_step l h c w t h' n :
  top l h -> at_text h (c :: w) -> l_start h = 0 -> l_stop h = 0 -> (c <> 0xEF \/ l_idx h <> 0%nat) ->
  c <> " "%ch -> c <> ch_tab -> c <> ch_bs ->
  lex_switch (set_tokpos h false) = Ok (t, h', n) ->
  next_token l = Ok (t, Lexer (set_names h' (update_names (l_names h') (ty t))) KBase n).
Proof.
  intros Ht Ha H1 H2 H3 H4 H5 H6 Hl. rewrite (top_next _ _ Ht).
  unfold next_own. cbn [skip_ws]. rewrite (skip_ws_none _ _ Ha) by auto. cbn [bind build].
  rewrite (build_base_top (set_tokpos h false) c w); auto. rewrite Hl. reflexivity.
Qed.

(** ** Strings with escapes *)

Lemma advance_n_stop k f : l_stop (advance_n k f) = l_stop f.
Proof. rewrite (advance_n_frame k f). reflexivity. Qed.
Lemma advance_n_start k f : l_start (advance_n k f) = l_start f.
Proof. rewrite (advance_n_frame k f). reflexivity. Qed.
Lemma advance_n_depth k f : l_depth (advance_n k f) = l_depth f.
Proof. rewrite (advance_n_frame k f). reflexivity. Qed.

Lemma hd_app_stop (b : str) (stop : N) r : hd 0 (b ++ stop :: r) = hd stop b.
Proof. destruct b; reflexivity. Qed.

Lemma piece_shape start stop p n : piece_ok start stop p n ->
  (exists c, p = PChar c) \/ exists w, piece_text p = ch_bs :: w.
Proof. intros H. destruct p; cbn [piece_text]; eauto. Qed.
Lemma piece_len p : (1 <= length (piece_text p))%nat.
Proof. destruct p; cbn [piece_text length]; lia. Qed.

Lemma str_loop_fwd start stop et al : stop <> 0 -> stop <> ch_bs -> stop <> "#"%ch ->
  forall ps fuel g buf r,
  at_text g (body_text ps ++ stop :: r) -> l_stop g = stop -> l_start g = 0 \/ l_start g = start -> l_depth g = 0%nat ->
  body_ok start stop ps -> (length ps < fuel)%nat ->
  str_loop fuel g et al buf =
    let h := advance_n (S (length (body_text ps))) g in
    match buf ++ body_bytes ps with
    | [] => str_finish h et al
    | _ => Ok (tkl h T_String (buf ++ body_bytes ps), h, KStr EndToken et al, None)
    end.
Proof.
  intros S1 S2 S3. induction ps as [|p ps IH]; intros fuel g buf r Hat Hst Hs0 Hd Hok Hf;
    (destruct fuel as [|fuel]; [lia|]); cbn [str_loop].
  - cbn [body_text map concat app] in Hat. rewrite (at_cur _ _ _ Hat), Hst.
    apply N.eqb_neq in S1, S2, S3. rewrite S1, S2, S3. cbn [negb andb].
    replace ((stop =? l_start g) && negb (l_start g =? stop)) with false
      by (symmetry; destruct (stop =? l_start g) eqn:E; [rewrite N.eqb_sym, E; reflexivity|reflexivity]).
    rewrite N.eqb_refl. change (l_depth (advance g)) with (l_depth g). rewrite Hd.
    cbn [body_bytes map concat body_text length]. rewrite app_nil_r. reflexivity.
  - destruct Hok as [Hp Hok]. cbn [body_text map concat] in Hat. fold (body_text ps) in Hat. rewrite <- app_assoc in Hat.
    cbn [length] in Hf.
    destruct (piece_shape _ _ _ _ Hp) as [[c ->]|[w Hw]].
    + cbn [piece_text app] in Hat. rewrite (at_cur _ _ _ Hat), (at_peek _ _ _ Hat), Hst.
      rewrite hd_app_stop. destruct Hp as (P1 & P2 & P3 & P4 & P5).
      assert (Hh : (c =? "#"%ch) && (hd stop (body_text ps) =? "{"%ch) = false).
      { destruct (c =? "#"%ch) eqn:E; [|reflexivity]. cbn [andb]. apply N.eqb_eq in E. apply N.eqb_neq. auto. }
      rewrite Hh. apply N.eqb_neq in P1, P2, P3, P4. rewrite P1, P2, P4. cbn [andb].
      replace (c =? l_start g) with false by (destruct Hs0 as [->| ->]; auto). cbn [andb].
      rewrite (IH fuel (advance g) (buf ++ [c]) r) by (first [exact (at_adv _ _ _ Hat)|assumption|lia]).
      cbn [body_bytes body_text map concat piece_bytes piece_text]. fold (body_text ps) (body_bytes ps).
      rewrite <- app_assoc. reflexivity.
    + assert (Hnp : p <> PChar ch_bs) by (intros ->; destruct Hp as (_ & P2 & _); congruence).
      pose proof Hat as Hat0. rewrite Hw in Hat. cbn [app] in Hat. rewrite (at_cur _ _ _ Hat), Hst.
      change (ch_bs =? 0) with false. apply N.eqb_neq in S2. rewrite S2. change (ch_bs =? ch_bs) with true. cbn [negb andb].
      pose proof (at_adv _ _ _ Hat) as Hat1.
      rewrite (escape_fwd (advance g) start stop p w buf (body_text ps ++ stop :: r) Hw Hnp)
        by (auto; rewrite hd_app_stop; exact Hp).
      cbn [bind].
      rewrite (IH fuel (advance_n (length w) (advance g)) (buf ++ piece_bytes p) r).
      * cbv zeta. rewrite (advance_1 g), !advance_n_plus.
        cbn [body_bytes body_text map concat]. fold (body_text ps) (body_bytes ps). rewrite <- app_assoc.
        rewrite app_length, Hw. cbn [length].
        replace (advance_n (1 + (length w + S (length (body_text ps)))) g) with (advance_n (S (S (length w) + length (body_text ps))) g)
          by (f_equal; lia).
        reflexivity.
      * apply at_adv_n. exact Hat1.
      * rewrite (advance_1 g), advance_n_plus, advance_n_stop. exact Hst.
      * rewrite (advance_1 g), advance_n_plus, advance_n_start. exact Hs0.
      * rewrite (advance_1 g), advance_n_plus, advance_n_depth. exact Hd.
      * exact Hok.
      * lia.
Qed.

Definition delimiter_ok (start stop : N) : Prop := stop <> 0 /\ stop <> ch_bs /\ stop <> "#"%ch /\ start <> 0.

Lemma body_len ps : (length ps <= length (body_text ps))%nat.
Proof.
  induction ps as [|p ps IH]; [reflexivity|]. cbn [body_text map concat length]. fold (body_text ps).
  rewrite app_length. pose proof (piece_len p). lia.
Qed.

(** The string lexer reads [txt] up to the closing delimiter as [bytes]. *)
Definition str_reads (start stop : N) (txt bytes : str) : Prop := forall et g r,
  at_text g (txt ++ stop :: r) -> l_stop g = stop -> l_start g = (if start =? stop then 0 else start) -> l_depth g = 0%nat ->
  str_loop (loop_fuel g) g et true [] =
    let h := advance_n (S (length txt)) g in
    match bytes with
    | [] => str_finish h et true
    | _ => Ok (tkl h T_String bytes, h, KStr EndToken et true, None)
    end.
Lemma body_reads start stop ps : delimiter_ok start stop -> body_ok start stop ps -> str_reads start stop (body_text ps) (body_bytes ps).
Proof.
  intros (S1 & S2 & S3 & S4) Hok et g r Hat Hst Hs0 Hd.
  apply (str_loop_fwd start stop et true S1 S2 S3 ps _ _ [] r); auto.
  - rewrite Hs0. destruct (start =? stop); auto.
  - rewrite (at_fuel _ _ Hat), app_length. pose proof (body_len ps). cbn [length]. lia.
Qed.

Lemma string_emits_of f g start stop et txt bytes r :
  is_eof et = false ->
  at_text g (txt ++ stop :: r) -> l_depth g = 0%nat -> str_reads start stop txt bytes ->
  exists ts t g', emits (Lexer f KBase (Some (new_string_lexer g start stop et))) ts
      (Lexer (set_last f t) KBase (Some (Lexer g' (KStr Done et true) None)))
    /\ shapes ts = content bytes ++ [(et, None)]
    /\ l_cur g' = l_cur (advance_n (S (length txt)) g).
Proof.
  intros He Hat Hd Hok. unfold new_string_lexer.
  set (g0 := set_stop_char (set_start_char g (if start =? stop then 0 else start)) stop).
  assert (H0 : str_loop (loop_fuel (set_tokpos g0 false)) (set_tokpos g0 false) et true [] =
    let h := advance_n (S (length txt)) (set_tokpos g0 false) in
    match bytes with
    | [] => str_finish h et true
    | _ => Ok (tkl h T_String bytes, h, KStr EndToken et true, None)
    end).
  { apply (Hok et (set_tokpos g0 false) r Hat eq_refl eq_refl Hd). }
  assert (Hcur : forall k, l_cur (advance_n k (set_tokpos g0 false)) = l_cur (advance_n k g)).
  { assert (E : forall k a b, l_cur a = l_cur b -> l_input a = l_input b -> l_size a = l_size b ->
       l_cur (advance_n k a) = l_cur (advance_n k b)).
    { induction k as [|k IH]; intros a b E1 E2 E3; [exact E1|]. cbn [advance_n].
      apply IH; unfold advance, current_char; rewrite ?E1, ?E2, ?E3;
        destruct (_ =? ch_nl); cbn; congruence. }
    intros k. apply E; reflexivity. }
  destruct bytes as [|b bs] eqn:Eb.
  - eexists [_], _, _. split; [|split].
    + eapply emits_step; [|apply emits_nil]. cbn [next_token]. unfold next_own. cbn [skip_ws bind build build_str].
      rewrite H0. cbv zeta. unfold str_finish. cbn [bind ty tkc]. rewrite He. reflexivity.
    + reflexivity.
    + cbn [set_names l_cur]. apply Hcur.
  - eexists [_; _], _, _. split; [|split].
    + eapply emits_step; [|eapply (emits_step _ _ (set_last f _)); [|change (set_last (set_last f ?a) ?b) with (set_last f b); apply emits_nil]].
      * cbn [next_token]. unfold next_own. cbn [skip_ws bind build build_str].
        rewrite H0. cbv zeta. cbn [bind ty tkl is_eof]. reflexivity.
      * cbn [next_token]. unfold next_own. cbn [skip_ws bind build build_str].
        unfold str_finish. cbn [bind ty tkc]. rewrite He. reflexivity.
    + reflexivity.
    + cbn [set_names l_cur set_tokpos]. apply Hcur.
Qed.

Lemma string_emits f g start stop et ps r :
  is_eof et = false ->
  delimiter_ok start stop -> at_text g (body_text ps ++ stop :: r) -> l_depth g = 0%nat -> body_ok start stop ps ->
  exists ts t g', emits (Lexer f KBase (Some (new_string_lexer g start stop et))) ts
      (Lexer (set_last f t) KBase (Some (Lexer g' (KStr Done et true) None)))
    /\ shapes ts = content (body_bytes ps) ++ [(et, None)]
    /\ l_cur g' = l_cur (advance_n (S (length (body_text ps))) g).
Proof. intros. apply string_emits_of with (r := r); auto using body_reads. Qed.

Lemma delimiters_ok a b : delimiters a b -> delimiter_ok a b.
Proof.
  unfold delimiter_ok. intros [| | | |c Hc]; try (repeat split; discriminate).
  assert (E : forallb (fun c => negb (c =? 0) && negb (c =? ch_bs) && negb (c =? "#"%ch)) (s2l "!""$%&'*+,-./:;=?@^_`|~") = true)
    by reflexivity.
  rewrite forallb_forall in E. specialize (E c Hc). unfold ch_bs in *. lia.
Qed.
Lemma delimiters_punct a b : delimiters a b -> isalnum a = false.
Proof.
  intros [| | | |c Hc]; try reflexivity.
  assert (E : forallb (fun c => negb (isalnum c)) (s2l "!""$%&'*+,-./:;=?@^_`|~") = true) by reflexivity.
  rewrite forallb_forall in E. specialize (E c Hc). apply negb_true_iff in E. exact E.
Qed.
Lemma opening_ok op a b bt et : opening op a b bt et -> delimiter_ok a b /\ is_eof et = false.
Proof. intros H; destruct H; (split; [|reflexivity]); auto using delimiters_ok; repeat split; discriminate. Qed.

Lemma percent_fwd f consumer lettered a b :
  n_rem (l_names f) = 0 -> delimiters a b ->
  (if (lettered : bool) then peek f else current_char f) = a ->
  consume_percent_string f consumer lettered = consumer (advance_n (if lettered then 2 else 1) f) a b.
Proof.
  intros H0 Hd Hc. unfold consume_percent_string. rewrite H0. change (0 <? 0) with false. cbv iota zeta.
  rewrite Hc. destruct Hd as [| | | |c Hin]; try reflexivity.
  assert (E : forallb (fun c => negb (c =? "["%ch) && negb (c =? "{"%ch) && negb (c =? "<"%ch) && negb (c =? "("%ch)
     && char_can_be_string_or_regexp_delimiter c) (s2l "!""$%&'*+,-./:;=?@^_`|~") = true) by reflexivity.
  rewrite forallb_forall in E. specialize (E c Hin).
  apply andb_prop in E; destruct E as [E E5]. apply andb_prop in E; destruct E as [E E4].
  apply andb_prop in E; destruct E as [E E3]. apply andb_prop in E; destruct E as [E1 E2].
  apply negb_true_iff in E1, E2, E3, E4. rewrite E1, E2, E3, E4, E5. reflexivity.
Qed.

(** The lexer reads code: no enclosing literal, no method name expected. *)
Definition in_code (h : lx) : Prop :=
  l_start h = 0 /\ l_stop h = 0 /\ l_depth h = 0%nat /\ n_rem (l_names h) = 0 /\ n_sep (l_names h) = T_Invalid.

Lemma in_code_new s : in_code (new_lx s).
Proof. repeat split. Qed.

Lemma at_code f w : at_text f w -> forall c r, w = c :: r -> current_char f = c.
Proof. intros H c r ->. apply (at_cur _ _ _ H). Qed.

Ltac eqb_consts := repeat match goal with
  | |- context [N.eqb (Npos ?a) (Npos ?b)] => let v := eval vm_compute in (N.eqb (Npos a) (Npos b)) in
      replace (N.eqb (Npos a) (Npos b)) with v by reflexivity; cbv iota
  end.

Lemma open_at h op a b bt et r :
  opening op a b bt et -> at_text h (op ++ r) -> n_rem (l_names h) = 0 ->
  (bt = T_InterpolatedSymbolBegin -> ty (l_last h) <> T_InterpolatedStringEnd \/ l_ws h = true) ->
  lex_switch h = Ok (tkl (advance_n (length op) h) bt [a], advance_n (length op) h,
                     Some (new_string_lexer (advance_n (length op) h) a b et)).
Proof.
  intros Ho Hat C4 Hlast. unfold lex_switch.
  destruct Ho as [| | |a b Hd|a b Hd Hne|a b Hd].
  - assert (Hat' : at_text h (""""%ch :: r)) by exact Hat. rewrite (at_cur _ _ _ Hat'). eqb_consts. reflexivity.
  - assert (Hat' : at_text h ("`"%ch :: r)) by exact Hat. rewrite (at_cur _ _ _ Hat'). eqb_consts.
    change (n_rem (l_names (advance h))) with (n_rem (l_names h)). rewrite C4. reflexivity.
  - assert (Hat' : at_text h (":"%ch :: """"%ch :: r)) by exact Hat. rewrite (at_cur _ _ _ Hat'). eqb_consts.
    pose proof (at_adv _ _ _ Hat') as H1. rewrite (at_cur _ _ _ H1). eqb_consts.
    change (ty (l_last (advance h))) with (ty (l_last h)). change (l_ws (advance h)) with (l_ws h).
    destruct (Hlast eq_refl) as [Hl|Hl]; [|rewrite Hl; cbn [negb]; rewrite andb_false_r; reflexivity].
    replace (ttype_eqb (ty (l_last h)) T_InterpolatedStringEnd) with false
      by (symmetry; destruct (ttype_eqb (ty (l_last h)) T_InterpolatedStringEnd) eqn:E; [apply ttype_eqb_iff in E; congruence|reflexivity]).
    reflexivity.
  - cbn [app] in Hat. rewrite (at_cur _ _ _ Hat). eqb_consts.
    pose proof (at_adv _ _ _ Hat) as H1. rewrite (at_cur _ _ _ H1). eqb_consts.
    rewrite (percent_fwd (advance h) _ true a b); [reflexivity|exact C4|exact Hd|exact (at_peek _ _ _ H1)].
  - cbn [app] in Hat. rewrite (at_cur _ _ _ Hat). eqb_consts.
    pose proof (at_adv _ _ _ Hat) as H1. rewrite (at_cur _ _ _ H1).
    apply N.eqb_neq in Hne. rewrite Hne.
    assert (Hl : forall c, In c ["q"; "Q"; "r"; "s"; "x"; "w"; "W"; "i"; "I"]%ch -> (a =? c) = false).
    { intros c Hc. apply N.eqb_neq. intros ->. apply delimiters_punct in Hd.
      assert (E : forallb isalnum ["q"; "Q"; "r"; "s"; "x"; "w"; "W"; "i"; "I"]%ch = true) by reflexivity.
      rewrite forallb_forall in E. specialize (E c Hc). congruence. }
    rewrite !Hl by (cbn [In]; auto 12).
    rewrite (percent_fwd (advance h) _ false a b); [reflexivity|exact C4|exact Hd|exact (at_cur _ _ _ H1)].
  - cbn [app] in Hat. rewrite (at_cur _ _ _ Hat). eqb_consts.
    pose proof (at_adv _ _ _ Hat) as H1. rewrite (at_cur _ _ _ H1). eqb_consts.
    rewrite (percent_fwd (advance h) _ true a b); [reflexivity|exact C4|exact Hd|exact (at_peek _ _ _ H1)].
Qed.

Lemma open_fwd h op a b bt et r :
  opening op a b bt et -> at_text h (op ++ r) -> in_code h -> ty (l_last h) <> T_InterpolatedStringEnd ->
  lex_switch h = Ok (tkl (advance_n (length op) h) bt [a], advance_n (length op) h,
                     Some (new_string_lexer (advance_n (length op) h) a b et)).
Proof. intros Ho Hat (_ & _ & _ & C & _) Hl. apply (open_at h op a b bt et r); auto. Qed.

Lemma top_text l h w : top l h -> at_text h w -> at_text h w.
Proof. auto. Qed.

Lemma simple_content bytes : Forall (fun s => simple (Tok (fst s) (snd s) None 0 [] 0 0 false)) (content bytes).
Proof. destruct bytes; repeat constructor. Qed.

Definition simple_ty (t : ttype) : Prop :=
  is_comment t = false /\ is_doc t = false /\ is_newline t = false /\ is_eof t = false
  /\ is_valid t = true.
Lemma simple_shapes ts : Forall (fun s => simple_ty (fst s)) (shapes ts) -> Forall simple ts.
Proof. unfold shapes. rewrite Forall_map. apply Forall_impl. auto. Qed.

Lemma opening_simple op a b bt et : opening op a b bt et -> simple_ty bt /\ simple_ty et.
Proof. intros H; destruct H; repeat split. Qed.

Lemma opening_head op a b bt et : opening op a b bt et -> exists c w, op = c :: w /\
  c <> 0xEF /\ c <> " "%ch /\ c <> ch_tab /\ c <> ch_bs.
Proof. intros H; destruct H; do 2 eexists; (split; [reflexivity|]); repeat split; discriminate. Qed.

Lemma update_names_code n t : n_rem n = 0 -> n_sep n = T_Invalid ->
  match t with T_AliasKeyword | T_ConstantResolution | T_DefKeyword | T_Dot | T_UndefKeyword => False | _ => True end ->
  n_rem (update_names n t) = 0 /\ n_sep (update_names n t) = T_Invalid.
Proof.
  intros H1 H2 H3. unfold update_names. destruct t; try contradiction; rewrite H2, H1; cbn; auto.
Qed.

(** A literal with escapes, read in code. *)
Lemma literal_emits_of l h op a b bt et txt bytes r :
  opening op a b bt et -> str_reads a b txt bytes ->
  top l h -> in_code h -> ty (l_last h) <> T_InterpolatedStringEnd ->
  at_text h (op ++ txt ++ b :: r) ->
  exists ts l2 h2, emits l ts l2 /\ top l2 h2 /\ in_code h2 /\ at_text h2 r
    /\ shapes ts = (bt, Some [a]) :: content bytes ++ [(et, None)].
Proof.
  intros Ho Hok Ht Hc Hl Hat.
  destruct (opening_ok _ _ _ _ _ Ho) as [Hdel He]. destruct (opening_simple _ _ _ _ _ Ho) as [Hs1 Hs2].
  destruct (opening_head _ _ _ _ _ Ho) as (c & w & E & N1 & N2 & N3 & N4).
  set (h0 := set_tokpos h false). assert (Hat0 : at_text h0 (op ++ txt ++ b :: r)) by exact Hat.
  pose proof (open_fwd h0 op a b bt et _ Ho Hat0 Hc Hl) as Hsw.
  set (g := advance_n (length op) h0) in *.
  pose proof Hc as (C1 & C2 & C3 & C4 & C5).
  assert (Hstep : next_token l = Ok (tkl g bt [a], Lexer (set_names g (update_names (l_names g) bt)) KBase (Some (new_string_lexer g a b et)))).
  { subst op. apply (top_step l h c (w ++ txt ++ b :: r)); auto. }
  pose proof (at_adv_n _ _ _ Hat0) as Hg. fold g in Hg.
  assert (Hfr : frame h0 g) by apply advance_n_frame.
  assert (Hgd : l_depth g = 0%nat) by (rewrite Hfr; exact C3).
  destruct (string_emits_of (set_last (set_names g (update_names (l_names g) bt)) (tkl g bt [a])) g a b et txt bytes r He Hg Hgd Hok)
    as (ts & t & g' & E1 & E2 & E3).
  assert (Hn : n_rem (update_names (l_names g) bt) = 0 /\ n_sep (update_names (l_names g) bt) = T_Invalid).
  { assert (En : l_names g = l_names h) by (rewrite Hfr; reflexivity). rewrite En.
    apply update_names_code; auto. destruct Ho; exact I. }
  eexists (tkl g bt [a] :: ts), _, _. split; [|split; [apply top_done, fin_str|split; [|split]]].
  - eapply emits_step; [exact Hstep|exact E1].
  - unfold in_code. cbn [l_start l_stop l_depth l_names set_cur set_last set_names].
    rewrite Hfr. cbn [l_start l_stop l_depth l_names set_cur set_last set_names].
    destruct Hn as [Hn1 Hn2]. rewrite Hfr in Hn1, Hn2. repeat split; auto.
  - assert (Hr : at_text (advance_n (S (length txt)) g) r).
    { rewrite <- advance_n_S. apply (at_adv _ b). apply at_adv_n. exact Hg. }
    destruct Hr as [Hw Hr]. split.
    + unfold wf in *. cbn [l_size l_input set_cur set_last set_names]. destruct Hg as [Hg _]. exact Hg.
    + unfold rest in *. cbn [l_cur l_input set_cur set_last set_names]. rewrite E3.
      rewrite (advance_n_frame _ g) in Hr. exact Hr.
  - cbn [shapes map]. f_equal. exact E2.
Qed.

Theorem literal_source_of op a b bt et txt bytes fuel :
  opening op a b bt et -> str_reads a b txt bytes -> (4 <= fuel)%nat ->
  exists ts, tokens fuel (op ++ txt ++ [b]) = Ok ts
    /\ shapes ts = (bt, Some [a]) :: content bytes ++ [(et, None); (T_Eof, None)].
Proof.
  intros Ho Hok Hf. set (s := op ++ txt ++ [b]).
  destruct (literal_emits_of (Lexer (new_lx s) KBase None) (new_lx s) op a b bt et txt bytes [] Ho Hok (top_plain _) (in_code_new s)
    ltac:(discriminate) (at_new s)) as (ts & l2 & h2 & E1 & E2 & E3 & E4 & E5).
  destruct (opening_simple _ _ _ _ _ Ho) as [Hs1 Hs2].
  destruct (emits_source s ts l2 h2 fuel E1) as (t & T1 & T2); auto.
  - apply simple_shapes. rewrite E5. constructor; [exact Hs1|]. apply Forall_app. split.
    + destruct bytes; repeat constructor.
    + repeat constructor; apply Hs2.
  - assert (El : length ts = length (shapes ts)) by (unfold shapes; rewrite map_length; reflexivity).
    rewrite El, E5. cbn [length]. rewrite app_length. destruct bytes; cbn [content length]; lia.
  - exists (ts ++ [t]). split; [exact T2|]. unfold shapes in *. rewrite map_app, E5. cbn [map app]. rewrite T1, <- app_assoc. reflexivity.
Qed.

Lemma literal_emits l h op a b bt et ps r :
  opening op a b bt et -> body_ok a b ps ->
  top l h -> in_code h -> ty (l_last h) <> T_InterpolatedStringEnd ->
  at_text h (op ++ body_text ps ++ b :: r) ->
  exists ts l2 h2, emits l ts l2 /\ top l2 h2 /\ in_code h2 /\ at_text h2 r
    /\ shapes ts = (bt, Some [a]) :: content (body_bytes ps) ++ [(et, None)].
Proof.
  intros Ho Hok. apply literal_emits_of; auto. destruct (opening_ok _ _ _ _ _ Ho) as [Hdel _]. apply body_reads; auto.
Qed.
Theorem literal_source op a b bt et ps fuel :
  opening op a b bt et -> body_ok a b ps -> (4 <= fuel)%nat ->
  exists ts, tokens fuel (op ++ body_text ps ++ [b]) = Ok ts
    /\ shapes ts = (bt, Some [a]) :: content (body_bytes ps) ++ [(et, None); (T_Eof, None)].
Proof.
  intros Ho Hok. apply literal_source_of; auto. destruct (opening_ok _ _ _ _ _ Ho) as [Hdel _]. apply body_reads; auto.
Qed.

(** ** Strings without escapes *)

Lemma sq_loop_fwd start stop : stop <> 0 -> stop <> ch_bs -> forall bytes fuel f buf r,
  at_text f (raw_quoted stop bytes ++ stop :: r) -> raw_writable start stop bytes ->
  (hd 0 r <> ":"%ch \/ l_ternary f = true) -> (length bytes < fuel)%nat ->
  sq_loop fuel f start stop 0 buf =
    let g := advance_n (S (length (raw_quoted stop bytes))) f in Ok (tkl g T_String (buf ++ bytes), g).
Proof.
  intros S1 S2. induction bytes as [|c bytes IH]; intros fuel f buf r Hat Hw Hr Hf;
    (destruct fuel as [|fuel]; [lia|]); cbn [sq_loop].
  - cbn [raw_quoted app] in Hat. rewrite (at_cur _ _ _ Hat).
    apply N.eqb_neq in S1, S2. rewrite S1, S2. cbn [negb andb].
    replace ((stop =? start) && negb (start =? stop)) with false
      by (symmetry; rewrite N.eqb_sym; destruct (start =? stop); reflexivity).
    rewrite N.eqb_refl. pose proof (at_adv _ _ _ Hat) as H1. rewrite (at_cur_hd _ _ H1).
    replace ((hd 0 r =? ":"%ch) && negb (l_ternary (advance f))) with false.
    + cbn [raw_quoted length]. rewrite app_nil_r. reflexivity.
    + change (l_ternary (advance f)) with (l_ternary f). symmetry. destruct Hr as [Hr| ->]; [|apply andb_false_r].
      apply N.eqb_neq in Hr. rewrite Hr. reflexivity.
  - inversion Hw as [|? ? [W1 W2] Hw']; subst. cbn [raw_quoted] in Hat. cbn [length] in Hf.
    destruct ((c =? stop) || (c =? ch_bs)) eqn:E.
    + cbn [app] in Hat. rewrite (at_cur _ _ _ Hat). pose proof (at_adv _ _ _ Hat) as H1.
      apply N.eqb_neq in S2. rewrite S2. change (ch_bs =? 0) with false. change (ch_bs =? ch_bs) with true. cbn [negb andb].
      rewrite (at_cur _ _ _ H1), E.
      rewrite (IH fuel (advance (advance f)) (buf ++ [c]) r); auto; [|exact (at_adv _ _ _ H1)|lia].
      cbn [raw_quoted]. rewrite E. rewrite <- app_assoc. reflexivity.
    + cbn [app] in Hat. rewrite (at_cur _ _ _ Hat). pose proof (at_adv _ _ _ Hat) as H1.
      apply orb_false_elim in E. destruct E as [E1 E2]. rewrite E1, E2. apply N.eqb_neq in W1. rewrite W1. cbn [andb].
      replace ((c =? start) && negb (start =? stop)) with false
        by (symmetry; destruct (c =? start) eqn:Es; [apply N.eqb_eq in Es; rewrite (W2 Es), N.eqb_refl; reflexivity|reflexivity]).
      rewrite (IH fuel (advance f) (buf ++ [c]) r); auto; [|lia].
      cbn [raw_quoted]. rewrite E1, E2. cbn [orb]. rewrite <- app_assoc. reflexivity.
Qed.

Lemma raw_len stop bytes : (length bytes <= length (raw_quoted stop bytes))%nat.
Proof.
  induction bytes as [|c b IH]; [reflexivity|]. cbn [raw_quoted length]. rewrite app_length.
  destruct (_ || _); cbn [length]; lia.
Qed.
Lemma single_fwd f start stop bytes r : stop <> 0 -> stop <> ch_bs ->
  at_text f (raw_quoted stop bytes ++ stop :: r) -> raw_writable start stop bytes ->
  (hd 0 r <> ":"%ch \/ l_ternary f = true) ->
  consume_single_quoted_string f start stop =
    let g := advance_n (S (length (raw_quoted stop bytes))) f in Ok (tkl g T_String bytes, g).
Proof.
  intros S1 S2 Hat Hw Hr. unfold consume_single_quoted_string.
  rewrite (sq_loop_fwd start stop S1 S2 bytes _ f [] r Hat Hw Hr); [reflexivity|].
  rewrite (at_fuel _ _ Hat), app_length. pose proof (raw_len stop bytes). lia.
Qed.

Lemma cstr_raw start stop bytes : raw_writable start stop bytes -> cstr bytes = bytes.
Proof.
  induction 1 as [|c bytes [H _] _ IH]; [reflexivity|]. cbn [cstr]. apply N.eqb_neq in H. rewrite H, IH. reflexivity.
Qed.

(** The same for literals without escapes. *)
Definition sq_reads (start stop : N) (txt bytes : str) : Prop := forall f r,
  at_text f (txt ++ stop :: r) -> (hd 0 r <> ":"%ch \/ l_ternary f = true) ->
  consume_single_quoted_string f start stop = let g := advance_n (S (length txt)) f in Ok (tkl g T_String bytes, g).
Lemma raw_reads start stop bytes : stop <> 0 -> stop <> ch_bs -> raw_writable start stop bytes ->
  sq_reads start stop (raw_quoted stop bytes) bytes.
Proof. intros S1 S2 Hw f r Hat Hr. apply (single_fwd f start stop bytes r); auto. Qed.

Lemma raw_open_of h op a b t txt bytes r :
  raw_opening op a b t -> at_text h (op ++ txt ++ b :: r) -> sq_reads a b txt bytes -> (a = b -> cstr bytes = bytes) ->
  in_code h -> ty (l_last h) <> T_InterpolatedStringEnd -> hd 0 r <> ":"%ch ->
  exists tok, shape tok = (t, Some bytes) /\
  lex_switch h = Ok (tok, advance_n (length op + S (length txt)) h, None).
Proof.
  intros Ho Hat Hw Hcs (C1 & C2 & C3 & C4 & C5) Hlast Hr. unfold lex_switch.
  destruct Ho as [|a b Hd| |a b Hd].
  - assert (Hat' : at_text h ("'"%ch :: txt ++ "'"%ch :: r)) by exact Hat.
    rewrite (at_cur _ _ _ Hat'). eqb_consts. pose proof (at_adv _ _ _ Hat') as H1.
    rewrite (Hw (advance h) r H1) by auto.
    eexists. split; [|reflexivity]. reflexivity.
  - cbn [app] in Hat. rewrite (at_cur _ _ _ Hat). eqb_consts.
    pose proof (at_adv _ _ _ Hat) as H1. rewrite (at_cur _ _ _ H1). eqb_consts.
    destruct (delimiters_ok _ _ Hd) as (D1 & D2 & D3 & D4).
    rewrite (percent_fwd (advance h) _ true a b); [|exact C4|exact Hd|exact (at_peek _ _ _ H1)].
    pose proof (at_adv _ _ _ (at_adv _ _ _ H1)) as H3. change (advance (advance (advance h))) with (advance_n 2 (advance h)) in H3.
    rewrite (Hw _ r H3) by auto.
    eexists. split; [|reflexivity]. reflexivity.
  - assert (Hat' : at_text h (":"%ch :: "'"%ch :: txt ++ "'"%ch :: r)) by exact Hat.
    rewrite (at_cur _ _ _ Hat'). eqb_consts.
    pose proof (at_adv _ _ _ Hat') as H1. rewrite (at_cur _ _ _ H1). eqb_consts.
    change (ty (l_last (advance h))) with (ty (l_last h)).
    replace (ttype_eqb (ty (l_last h)) T_InterpolatedStringEnd) with false
      by (symmetry; destruct (ttype_eqb (ty (l_last h)) T_InterpolatedStringEnd) eqn:E; [apply ttype_eqb_iff in E; congruence|reflexivity]).
    cbn [andb]. pose proof (at_adv _ _ _ H1) as H2.
    rewrite (Hw (advance (advance h)) r H2) by auto. cbn [bind].
    eexists. split; [|reflexivity]. unfold shape. cbn [ty lit tkl literal_or_blank]. rewrite (Hcs eq_refl). reflexivity.
  - cbn [app] in Hat. rewrite (at_cur _ _ _ Hat). eqb_consts.
    pose proof (at_adv _ _ _ Hat) as H1. rewrite (at_cur _ _ _ H1). eqb_consts.
    destruct (delimiters_ok _ _ Hd) as (D1 & D2 & D3 & D4).
    rewrite (percent_fwd (advance h) _ true a b); [|exact C4|exact Hd|exact (at_peek _ _ _ H1)].
    pose proof (at_adv _ _ _ (at_adv _ _ _ H1)) as H3. change (advance (advance (advance h))) with (advance_n 2 (advance h)) in H3.
    unfold consume_percent_symbol. rewrite (Hw _ r H3) by auto.
    eexists. split; [|reflexivity]. reflexivity.
Qed.
Lemma raw_opening_head op a b t : raw_opening op a b t -> exists c w, op = c :: w /\
  c <> 0xEF /\ c <> " "%ch /\ c <> ch_tab /\ c <> ch_bs.
Proof. intros H; destruct H; do 2 eexists; (split; [reflexivity|]); repeat split; discriminate. Qed.

Theorem raw_source_of op a b t txt bytes fuel :
  raw_opening op a b t -> sq_reads a b txt bytes -> (a = b -> cstr bytes = bytes) -> (2 <= fuel)%nat ->
  exists ts, tokens fuel (op ++ txt ++ [b]) = Ok ts /\ shapes ts = [(t, Some bytes); (T_Eof, None)].
Proof.
  intros Ho Hw Hcs Hf. set (s := op ++ txt ++ [b]). set (h := set_tokpos (new_lx s) false).
  destruct (raw_open_of h op a b t txt bytes [] Ho (at_new s) Hw Hcs (in_code_new s) ltac:(discriminate) ltac:(discriminate))
    as (tok & T1 & T2).
  destruct (raw_opening_head _ _ _ _ Ho) as (c & w & E & N1 & N2 & N3 & N4).
  set (g := set_last (set_names (advance_n (length op + S (length txt)) h)
     (update_names (l_names (advance_n (length op + S (length txt)) h)) (ty tok))) tok).
  destruct (emits_source s [tok] (Lexer g KBase None) g fuel) as (e & E1 & E2).
  - eapply emits_step; [|apply emits_nil].
    assert (Hat : at_text (new_lx s) (c :: w ++ txt ++ [b])) by (unfold s; subst op; apply at_new).
    apply (top_step _ _ _ _ _ _ _ (top_plain _) Hat); auto; try reflexivity; exact T2.
  - apply simple_shapes. cbn [shapes map]. rewrite T1. constructor; [|constructor]. destruct Ho; repeat split.
  - apply top_plain.
  - assert (Hat : at_text h ((op ++ txt ++ [b]) ++ [])) by (rewrite app_nil_r; apply at_new).
    apply at_adv_n in Hat. rewrite !app_length in Hat. cbn [length] in Hat.
    replace (length op + (length txt + 1))%nat with (length op + S (length txt))%nat in Hat by lia.
    exact Hat.
  - cbn [length]. lia.
  - exists ([tok] ++ [e]). split; [exact E2|]. cbn [shapes map app]. rewrite T1, E1. reflexivity.
Qed.

Lemma raw_opening_delim op a b t : raw_opening op a b t -> delimiter_ok a b.
Proof. intros H; destruct H; auto using delimiters_ok; repeat split; discriminate. Qed.
Lemma raw_open_fwd h op a b t bytes r :
  raw_opening op a b t -> at_text h (op ++ raw_quoted b bytes ++ b :: r) -> raw_writable a b bytes ->
  in_code h -> ty (l_last h) <> T_InterpolatedStringEnd -> hd 0 r <> ":"%ch ->
  exists tok, shape tok = (t, Some bytes) /\
  lex_switch h = Ok (tok, advance_n (length op + S (length (raw_quoted b bytes))) h, None).
Proof.
  intros Ho Hat Hw. destruct (raw_opening_delim _ _ _ _ Ho) as (D1 & D2 & D3 & D4).
  apply raw_open_of with (a := a) (b := b); auto using raw_reads. intros _. apply (cstr_raw _ _ _ Hw).
Qed.
Theorem raw_source op a b t bytes fuel :
  raw_opening op a b t -> raw_writable a b bytes -> (2 <= fuel)%nat ->
  exists ts, tokens fuel (op ++ raw_quoted b bytes ++ [b]) = Ok ts /\ shapes ts = [(t, Some bytes); (T_Eof, None)].
Proof.
  intros Ho Hw. destruct (raw_opening_delim _ _ _ _ Ho) as (D1 & D2 & D3 & D4).
  apply raw_source_of with (a := a) (b := b); auto using raw_reads. intros _. apply (cstr_raw _ _ _ Hw).
Qed.

(** ** Bytes between double quotes *)

Definition quote_piece (start stop c : N) : piece :=
  if (c =? start) || (c =? stop) || (c =? ch_bs) || (c =? "#"%ch) then PQuoted c else PChar c.
Lemma quoted_pieces start stop bytes :
  quoted start stop bytes = body_text (map (quote_piece start stop) bytes)
  /\ body_bytes (map (quote_piece start stop) bytes) = bytes.
Proof.
  induction bytes as [|c bytes [IH1 IH2]]; [split; reflexivity|].
  cbn [quoted map]. unfold body_text, body_bytes in *. cbn [map concat]. rewrite IH1, IH2.
  unfold quote_piece. destruct (_ || _ || _ || _); split; reflexivity.
Qed.
Lemma quoted_ok start stop bytes : escape_letter start = false -> escape_letter stop = false ->
  Forall (fun c => c <> 0) bytes -> body_ok start stop (map (quote_piece start stop) bytes).
Proof.
  intros E1 E2. induction 1 as [|c bytes Hc Hb IH]; [exact I|]. cbn [map body_ok]. split; [|exact IH].
  unfold quote_piece at 1. destruct ((c =? start) || (c =? stop) || (c =? ch_bs) || (c =? "#"%ch)) eqn:E.
  - cbn [piece_ok]. split; [exact Hc|].
    repeat (apply orb_prop in E; destruct E as [E|E]); apply N.eqb_eq in E; subst; auto.
  - apply orb_false_elim in E. destruct E as [E E5]. apply orb_false_elim in E. destruct E as [E E4].
    apply orb_false_elim in E. destruct E as [E6 E3]. apply N.eqb_neq in E3, E4, E5, E6.
    cbn [piece_ok]. repeat split; auto.
Qed.
Lemma delimiters_escape a b : delimiters a b -> escape_letter a = false /\ escape_letter b = false.
Proof.
  intros [| | | |c Hc]; try (split; reflexivity).
  assert (E : forallb (fun c => negb (escape_letter c)) (s2l "!""$%&'*+,-./:;=?@^_`|~") = true) by reflexivity.
  rewrite forallb_forall in E. specialize (E c Hc). apply negb_true_iff in E. auto.
Qed.
Lemma opening_escape op a b bt et : opening op a b bt et -> escape_letter a = false /\ escape_letter b = false.
Proof. intros H; destruct H; auto using delimiters_escape; split; reflexivity. Qed.
Theorem quoted_source op a b bt et bytes fuel :
  opening op a b bt et -> Forall (fun c => c <> 0) bytes -> (4 <= fuel)%nat ->
  exists ts, tokens fuel (op ++ quoted a b bytes ++ [b]) = Ok ts
    /\ shapes ts = (bt, Some [a]) :: content bytes ++ [(et, None); (T_Eof, None)].
Proof.
  intros Ho Hb Hf. destruct (quoted_pieces a b bytes) as [E1 E2]. destruct (opening_escape _ _ _ _ _ Ho) as [H1 H2].
  destruct (literal_source op a b bt et (map (quote_piece a b) bytes) fuel Ho (quoted_ok a b bytes H1 H2 Hb) Hf) as (ts & T1 & T2).
  rewrite <- E1 in T1. rewrite E2 in T2. eauto.
Qed.

(** * LexDeep: the tokens of texts with interpolated strings *)
From Coq Require Import Strings.String NArith ZArith Bool Arith List Lia ZifyBool ZifyNat ZifyN.
From Verif Require Import Base Token Spec SpecLit SpecLexeme SpecText LexModel LexBasics LexRest LexSwitch LexInv LexFwd LexString LexQuoted LexUnterminated LexInterp TokensProofs LexPunct LexLexeme LexText.
Import ListNotations.
Open Scope N_scope.

(** ** Streams *)
Definition quiet (ts : list token) : list token := filter (fun t => negb (is_comment (ty t))) ts.
Definition usable (t : token) : Prop :=
  is_doc (ty t) = false /\ is_eof (ty t) = false /\ (is_comment (ty t) = true \/ is_valid (ty t) = true).
Lemma quiet_app a b : quiet (a ++ b) = quiet a ++ quiet b.
Proof. apply filter_app. Qed.
Lemma quiet_cons t ts : is_comment (ty t) = false -> quiet (t :: ts) = t :: quiet ts.
Proof. intros H. unfold quiet. cbn [filter]. rewrite H. reflexivity. Qed.

Lemma lemits_nest n ts n' : lemits n ts n' -> forall f k, lemits (Lexer f k (Some n)) ts (Lexer f k (Some n')).
Proof.
  induction 1 as [n|n t n1 ts n2 H1 He H2 IH]; intros f k; [constructor|].
  eapply lemits_cons; [|exact He|apply IH]. cbn [next_token]. rewrite H1. cbn [bind]. rewrite He. reflexivity.
Qed.

(** What a token leaves open behind it, and where that ends. *)
Inductive nested (f : lx) (c : cursor) : option lexer -> list token -> option lexer -> Prop :=
| nested_none : l_cur f = c -> nested f c None [] None
| nested_some s ts g k : lemits s ts (Lexer g k None) -> finished k -> l_cur g = c -> nested f c (Some s) ts (Some (Lexer g k None)).

Lemma set_cur_same f : set_cur f (l_cur f) = f.
Proof. destruct f; reflexivity. Qed.
Lemma set_last_same f : set_last f (l_last f) = f.
Proof. destruct f; reflexivity. Qed.
Lemma set_cur_last f c t : set_cur (set_last f t) c = set_last (set_cur f c) t.
Proof. destruct f; reflexivity. Qed.
Lemma nested_top f c n ts n' : nested f c n ts n' -> forall h, l_cur h = l_cur f -> top (Lexer h KBase n') (set_cur h c).
Proof.
  intros H h Hc. destruct H as [E|s ts g k E Hk Eg].
  - rewrite <- E, <- Hc, set_cur_same. constructor.
  - rewrite <- Eg. constructor. exact Hk.
Qed.
Lemma nested_lemits L t f c n ts n' : next_token L = Ok (t, Lexer f KBase n) -> is_eof (ty t) = false -> nested f c n ts n' ->
  lemits L (t :: ts) (Lexer f KBase n').
Proof.
  intros H He Hn. eapply lemits_cons; [exact H|exact He|]. destruct Hn as [E|s ts g k E Hk Eg]; [constructor|].
  apply lemits_nest. exact E.
Qed.

(** ** Inside a literal *)
Record inside (src : str) (i : nat) (a b : N) (g : lx) : Prop := {
  in_input : l_input g = src; in_size : l_size g = length src; in_cur : l_cur g = pos_of src i;
  in_stop : l_stop g = b; in_start : l_start g = (if a =? b then 0 else a); in_depth : l_depth g = 0%nat }.

Lemma inside_at src i a b g w : inside src i a b g -> skipn i src = w -> at_text g w.
Proof. intros [H1 H2 H3 _ _ _] E. split; [unfold wf; congruence|]. unfold rest. rewrite H1, H3. exact E. Qed.
Lemma inside_tokpos src i a b g w : inside src i a b g -> inside src i a b (set_tokpos g w).
Proof. intros []. constructor; assumption. Qed.
Lemma inside_names src i a b g n : inside src i a b g -> inside src i a b (set_names g n).
Proof. intros []. constructor; assumption. Qed.
Lemma inside_adv src i a b g n : inside src i a b g -> inside src (i + n) a b (advance_n n g).
Proof.
  intros [H1 H2 H3 H4 H5 H6]. pose proof (read_n g n) as R. pose proof (read_pos _ _ _ _ _ H1 H2 H3 R) as Hp. destruct R. constructor; congruence.
Qed.
Lemma inside_start src i a b g : inside src i a b g -> l_start g = 0 \/ l_start g = a.
Proof. intros [_ _ _ _ H _]. rewrite H. destruct (a =? b); auto. Qed.

Lemma tokpos_token src i a b g w : inside src i a b g ->
  l_tline (set_tokpos g w) = line_of src i /\ l_tcol (set_tokpos g w) = col_of src i /\ l_ws (set_tokpos g w) = w.
Proof. intros [_ _ H _ _ _]. cbn [set_tokpos l_tline l_tcol l_ws]. rewrite H. auto. Qed.
Lemma adv_token n g : l_tline (advance_n n g) = l_tline g /\ l_tcol (advance_n n g) = l_tcol g /\ l_ws (advance_n n g) = l_ws g.
Proof. rewrite (advance_n_frame n g). auto. Qed.

Lemma end_emits src i a b et ps g r :
  delimiter_ok a b -> body_ok a b ps -> is_eof et = false -> inside src i a b g -> skipn i src = body_text ps ++ b :: r ->
  exists g', lemits (Lexer g (KStr InProgress et true) None)
      (text_token src i (body_bytes ps) ++ [token_at src (i + length (body_text ps) + 1) et None false]) (Lexer g' (KStr Done et true) None)
    /\ l_cur g' = pos_of src (i + length (body_text ps) + 1).
Proof.
  intros Hd Hok He Hin Ei. set (g1 := set_tokpos g false).
  assert (Hin1 : inside src i a b g1) by (apply inside_tokpos; exact Hin).
  pose proof (inside_at _ _ _ _ _ _ Hin1 Ei) as Hat.
  pose proof (body_reads a b ps Hd Hok et g1 r Hat (in_stop _ _ _ _ _ Hin1) (in_start _ _ _ _ _ Hin1) (in_depth _ _ _ _ _ Hin1)) as H0.
  cbv zeta in H0. set (h := advance_n (S (length (body_text ps))) g1) in *.
  assert (Hh : inside src (i + length (body_text ps) + 1) a b h).
  { replace (i + length (body_text ps) + 1)%nat with (i + S (length (body_text ps)))%nat by lia. apply inside_adv. exact Hin1. }
  destruct (tokpos_token _ _ _ _ _ false Hin) as (T1 & T2 & T3). fold g1 in T1, T2, T3.
  destruct (adv_token (S (length (body_text ps))) g1) as (U1 & U2 & U3). fold h in U1, U2, U3.
  pose proof (in_cur _ _ _ _ _ Hh) as Hc.
  destruct (body_bytes ps) as [|x bs].
  - eexists. split.
    + cbn [text_token app]. eapply lemits_cons; [| |apply lemits_nil].
      * cbn [next_token]. unfold next_own. cbn [skip_ws bind build build_str]. fold g1. rewrite H0. unfold str_finish. cbn [bind].
        unfold tkc, token_at. rewrite Hc, U3, T3. reflexivity.
      * exact He.
    + exact Hc.
  - eexists. split.
    + cbn [text_token app]. eapply lemits_cons; [| |eapply lemits_cons; [| |apply lemits_nil]].
      * cbn [next_token]. unfold next_own. cbn [skip_ws bind build build_str]. fold g1. rewrite H0. cbn [bind].
        unfold tkl, token_at. rewrite U1, U2, U3, T1, T2, T3. reflexivity.
      * reflexivity.
      * cbn [next_token]. unfold next_own. cbn [skip_ws bind build build_str]. unfold str_finish. cbn [bind].
        unfold tkc, token_at. cbn [set_tokpos set_names l_cur l_ws]. rewrite Hc. reflexivity.
      * exact He.
    + exact Hc.
Qed.

Lemma begin_emits src i a b et ps g r :
  delimiter_ok a b -> body_before a b ps "#"%ch -> inside src i a b g -> skipn i src = body_text ps ++ ["#"; "{"]%ch ++ r ->
  let j := (i + length (body_text ps) + 2)%nat in
  exists g', lemits (Lexer g (KStr InProgress et true) None)
      (text_token src i (body_bytes ps) ++ [token_at src (match body_bytes ps with [] => i | _ => j end) T_EvaluateToStringBegin None false])
      (Lexer g' (KStr EvaluateEnd et true) (Some (Lexer (sub_lx g' "{"%ch "}"%ch) KBase None)))
    /\ inside src j a b g'.
Proof.
  intros (S1 & S2 & S3 & S4) Hok Hin Ei j. set (g1 := set_tokpos g false).
  assert (Hin1 : inside src i a b g1) by (apply inside_tokpos; exact Hin).
  pose proof (inside_at _ _ _ _ _ _ Hin1 Ei) as Hat.
  set (g2 := advance_n (length (body_text ps)) g1). set (g3 := advance_n 2 g2).
  pose proof (at_adv_n _ _ _ Hat) as Hat2. fold g2 in Hat2. cbn [app] in Hat2.
  assert (Hin3 : inside src j a b g3).
  { unfold g3, g2, j. apply inside_adv, inside_adv. exact Hin1. }
  assert (E : str_loop (loop_fuel g1) g1 et true [] =
    match body_bytes ps with
    | [] => str_start_evaluation g3 et true
    | _ => Ok (tkl g3 T_String (body_bytes ps), g3, KStr EvaluateBegin et true, None)
    end).
  { rewrite (at_fuel _ _ Hat), app_length. pose proof (body_len ps) as Hlen.
    cbn [app length]. set (m := length r).
    replace (S (S (length (body_text ps) + S (S m))))%nat with (length ps + S (S (S (S (length (body_text ps) - length ps + m)))))%nat by (clear - Hlen; lia).
    rewrite (str_prefix a b et true S1 S2 ps _ g1 [] _ Hat); [|apply Hin1|apply (inside_start _ _ _ _ _ Hin1)|exact Hok].
    fold g2. cbn [str_loop app]. rewrite (at_cur _ _ _ Hat2), (at_peek _ _ _ Hat2). cbn [hd].
    change ("#"%ch =? 0) with false. change ("#"%ch =? ch_bs) with false. cbn [andb]. reflexivity. }
  destruct (tokpos_token _ _ _ _ _ false Hin) as (T1 & T2 & T3). fold g1 in T1, T2, T3.
  assert (U : l_tline g3 = l_tline g1 /\ l_tcol g3 = l_tcol g1 /\ l_ws g3 = l_ws g1).
  { destruct (adv_token 2 g2) as (U1 & U2 & U3). destruct (adv_token (length (body_text ps)) g1) as (V1 & V2 & V3). fold g3 in U1, U2, U3. fold g2 in V1, V2, V3.
    repeat split; congruence. }
  destruct U as (U1 & U2 & U3).
  destruct (body_bytes ps) as [|x bs].
  - exists (set_names g3 (update_names (l_names g3) T_EvaluateToStringBegin)). split; [|apply inside_names; exact Hin3].
    cbn [text_token app]. eapply lemits_cons; [| |apply lemits_nil]; [|reflexivity].
    cbn [next_token]. unfold next_own. cbn [skip_ws bind build build_str]. fold g1. rewrite E. unfold str_start_evaluation. cbn [bind].
    unfold tk, token_at. rewrite U1, U2, U3, T1, T2, T3. reflexivity.
  - set (g4 := set_names g3 (update_names (l_names g3) T_String)).
    exists (set_names (set_tokpos g4 false) (update_names (l_names (set_tokpos g4 false)) T_EvaluateToStringBegin)).
    split; [|apply inside_names, inside_tokpos, inside_names; exact Hin3].
    cbn [text_token app]. eapply lemits_cons; [| |eapply lemits_cons; [| |apply lemits_nil]]; try reflexivity.
    + cbn [next_token]. unfold next_own. cbn [skip_ws bind build build_str]. fold g1. rewrite E. cbn [bind].
      unfold tkl, token_at. rewrite U1, U2, U3, T1, T2, T3. reflexivity.
    + cbn [next_token]. unfold next_own. cbn [skip_ws bind build build_str]. unfold str_start_evaluation. cbn [bind ty].
      fold g4. unfold tk, token_at.
      destruct (tokpos_token src j a b g4 false (inside_names _ _ _ _ _ _ Hin3)) as (X1 & X2 & X3). rewrite X1, X2, X3. reflexivity.
Qed.

Lemma resume_emits src k a b et g L e f r :
  inside src k a b (set_cur g (pos_of src k)) -> skipn k src = "}"%ch :: r ->
  next_token L = Ok (e, Lexer f KBase None) -> is_eof (ty e) = true -> l_cur f = pos_of src k ->
  exists g', next_token (Lexer g (KStr EvaluateEnd et true) (Some L)) =
      Ok (token_at src k T_EvaluateToStringEnd None false, Lexer g' (KStr InProgress et true) None)
    /\ inside src (k + 1) a b g'.
Proof.
  intros Hin Ek Hn He Hc. eexists. split.
  - cbn [next_token]. rewrite Hn. cbn [bind]. rewrite He. cbn [alters_parent lexer_cur]. rewrite Hc.
    unfold next_own. cbn [skip_ws bind build build_str]. unfold tk, token_at.
    destruct (tokpos_token _ _ _ _ _ false Hin) as (X1 & X2 & X3).
    destruct (adv_token 1 (set_tokpos (set_cur g (pos_of src k)) false)) as (Y1 & Y2 & Y3). cbn [advance_n] in Y1, Y2, Y3.
    rewrite Y1, Y2, Y3, X1, X2, X3. reflexivity.
  - apply inside_names. apply (inside_adv _ _ _ _ _ 1). apply inside_tokpos. exact Hin.
Qed.
Lemma inside_cur src i a b g k : inside src i a b g -> inside src k a b (set_cur g (pos_of src k)).
Proof. intros []. constructor; auto. Qed.

(** ** Opening a literal *)
Lemma plain_build g m c w : at_text g (c :: w) -> c <> "{"%ch -> c <> "}"%ch -> l_start g = opened m -> l_stop g = closed m ->
  (c <> 0xEF \/ l_idx g <> 0%nat) -> build_base g = lex_switch g.
Proof.
  intros Hat N1 N2 G1 G2 Hb. unfold build_base. rewrite (at_in _ _ _ Hat), (at_cur _ _ _ Hat), G1, G2.
  assert (X : forall x, x = 0 \/ x = "{"%ch \/ x = "}"%ch -> negb (x =? 0) && (c =? x) = false).
  { intros x [->|[->| ->]]; [reflexivity|apply N.eqb_neq in N1; rewrite N1|apply N.eqb_neq in N2; rewrite N2]; apply andb_false_r. }
  rewrite !X by (destruct m; cbn [opened closed]; auto).
  destruct Hb as [Hb|Hb].
  - apply N.eqb_neq in Hb. rewrite Hb, andb_false_r. reflexivity.
  - apply Nat.eqb_neq in Hb. rewrite Hb. reflexivity.
Qed.

Lemma literal_open src i f L p m b op a c bt et r :
  state src i f p m -> top L f -> skipn i src = b ++ op ++ r -> blanks b -> opening op a c bt et -> naming p = false ->
  (bt = T_InterpolatedSymbolBegin -> apart p (blank_before b)) -> level m ->
  exists f1 g, next_token L = Ok (token_at src (i + length b) bt (Some [a]) (blank_before b), Lexer f1 KBase (Some (Lexer g (KStr InProgress et true) None)))
    /\ inside src (i + length b + length op) a c g
    /\ (forall k, state src k (set_cur f1 (pos_of src k)) (Place (prev p) false false) m)
    /\ (forall k t, is_valid (ty t) = true -> state src k (set_last (set_cur f1 (pos_of src k)) t) (Place (ty t) false false) m).
Proof.
  intros St Htop Ei Hb Ho Hnam Hap Hlev. pose proof (state_at _ _ _ _ _ _ St Ei) as Hat. destruct St as [S1 S2 S3 S4 S5 S6 S8 S7].
  assert (Hop : exists x w, op = x :: w /\ x <> 0xEF /\ x <> " "%ch /\ x <> ch_tab /\ x <> ch_bs /\ x <> "{"%ch /\ x <> "}"%ch).
  { destruct Ho; do 2 eexists; (split; [reflexivity|]); repeat split; discriminate. }
  destruct Hop as (x & w & Eo & N1 & N2 & N3 & N4 & N5 & N6).
  assert (Hsk : skip_whitespace f = Ok (blank_before b, advance_n (length b) f)).
  { unfold skip_whitespace. rewrite (skip_blanks b Hb f (op ++ r)); auto; try (rewrite Eo; assumption).
    rewrite (at_fuel _ _ Hat), app_length. clear; lia. }
  set (g := set_tokpos (advance_n (length b) f) (blank_before b)).
  assert (Hg : at_text g (op ++ r)) by (apply at_tokpos, at_adv_n, Hat).
  assert (Gi : l_input g = src) by (unfold g; cbn [set_tokpos l_input]; rewrite advance_n_input; exact S1).
  assert (Gs : l_size g = length src) by (unfold g; cbn [set_tokpos l_size]; rewrite (advance_n_frame (length b) f); exact S2).
  assert (Gc : l_cur g = pos_of src (i + length b)).
  { unfold g. cbn [set_tokpos l_cur]. apply (read_pos src i f _ _ S1 S2 S3). apply read_n. }
  assert (Gp : l_tline g = line_of src (i + length b) /\ l_tcol g = col_of src (i + length b) /\ l_ws g = blank_before b).
  { unfold g in *. cbn [set_tokpos l_tline l_tcol l_ws l_cur] in *. rewrite Gc. auto. }
  destruct Gp as (Gp1 & Gp2 & Gp3).
  assert (Gl : l_last g = l_last f /\ l_names g = l_names f /\ l_heredocs g = [] /\ l_start g = opened m /\ l_stop g = closed m /\ l_depth g = deep m).
  { unfold g. cbn [set_tokpos l_last l_names l_heredocs l_start l_stop l_depth]. rewrite (advance_n_frame (length b) f). auto 8. }
  destruct Gl as (Gl1 & Gl2 & Gl3 & Gl4 & Gl5 & Gl6).
  destruct S7 as [P1 P2 P3 P4 P5]. rewrite Hnam in P3.
  assert (Hsw : lex_switch g = Ok (tkl (advance_n (length op) g) bt [a], advance_n (length op) g, Some (new_string_lexer (advance_n (length op) g) a c et))).
  { apply (open_at g op a c bt et r Ho Hg); [rewrite Gl2; exact P3|]. intros E. rewrite Gl1, P1, Gp3. specialize (Hap E). unfold apart in Hap.
    destruct (ttype_eqb (prev p) T_InterpolatedStringEnd) eqn:Et; [apply ttype_eqb_iff in Et; auto|].
    left. intros E2. rewrite E2 in Et. discriminate. }
  assert (Hbb : build_base g = lex_switch g).
  { rewrite Eo in Hg. cbn [app] in Hg. apply (plain_build g m x (w ++ r) Hg); auto. }
  set (h := advance_n (length op) g) in *.
  destruct (adv_token (length op) g) as (U1 & U2 & U3). fold h in U1, U2, U3.
  pose proof (read_n g (length op)) as R. fold h in R. pose proof (read_pos _ _ _ _ _ Gi Gs Gc R) as Hpos.
  destruct R as [R1 R2 R3 R4 R5 R6 R7 R8 R9].
  set (f1 := set_names h (update_names (l_names h) bt)).
  assert (Hdep : l_depth h = 0%nat) by (rewrite R9, Gl6; destruct Hlev as [->| ->]; reflexivity).
  exists f1, (set_stop_char (set_start_char h (if a =? c then 0 else a)) c). split; [|split].
  - rewrite (top_next _ _ Htop). unfold next_own. cbn [skip_ws]. rewrite Hsk. cbn [bind build]. fold g. rewrite Hbb, Hsw. cbn [bind].
    unfold tkl, token_at. rewrite U1, U2, U3, Gp1, Gp2, Gp3. reflexivity.
  - constructor; cbn [set_stop_char set_start_char l_input l_size l_cur l_stop l_start l_depth]; auto; congruence.
  - assert (Hn : n_rem (l_names f1) = 0 /\ n_allow (l_names f1) = false /\ n_sep (l_names f1) = T_Invalid).
    { unfold f1. cbn [set_names l_names]. rewrite R6, Gl2. unfold update_names. destruct Ho; rewrite P5, P3; repeat split. }
    destruct Hn as (M1 & M2 & M3).
    assert (Hf1 : l_input f1 = src /\ l_size f1 = length src /\ l_heredocs f1 = [] /\ l_start f1 = opened m /\ l_stop f1 = closed m /\ l_depth f1 = deep m /\ ty (l_last f1) = prev p).
    { unfold f1. cbn [set_names l_input l_size l_heredocs l_start l_stop l_depth l_last]. repeat split; congruence. }
    destruct Hf1 as (F1 & F2 & F3 & F4 & F5 & F6 & F7). split.
    + intros k. constructor; auto. constructor; auto.
    + intros k t Ht. constructor; auto. constructor; auto.
Qed.

(** ** The end of interpolated code *)
Lemma code_end src i f L p tail r : state src i f p (Some O) -> top L f -> skipn i src = tail ++ "}"%ch :: r -> blanks tail ->
  exists e f', next_token L = Ok (e, Lexer f' KBase None) /\ is_eof (ty e) = true /\ l_cur f' = pos_of src (i + length tail).
Proof.
  intros St Htop Ei Hb. pose proof (state_at _ _ _ _ _ _ St Ei) as Hat. destruct St as [S1 S2 S3 S4 S5 S6 S8 S7].
  assert (Hsk : skip_whitespace f = Ok (blank_before tail, advance_n (length tail) f)).
  { unfold skip_whitespace. rewrite (skip_blanks tail Hb f ("}"%ch :: r)); auto; try discriminate.
    rewrite (at_fuel _ _ Hat), app_length. clear; lia. }
  set (g := set_tokpos (advance_n (length tail) f) (blank_before tail)).
  assert (Hg : at_text g ("}"%ch :: r)) by (apply at_tokpos, at_adv_n, Hat).
  assert (Gc : l_cur g = pos_of src (i + length tail)).
  { unfold g. cbn [set_tokpos l_cur]. apply (read_pos src i f _ _ S1 S2 S3). apply read_n. }
  assert (Gl : l_start g = "{"%ch /\ l_stop g = "}"%ch /\ l_depth g = 0%nat).
  { unfold g. cbn [set_tokpos l_start l_stop l_depth]. rewrite (advance_n_frame (length tail) f). auto. }
  destruct Gl as (G1 & G2 & G3).
  do 2 eexists. split; [|split].
  - rewrite (top_next _ _ Htop). unfold next_own. cbn [skip_ws]. rewrite Hsk. cbn [bind build]. fold g. unfold build_base.
    rewrite (at_in _ _ _ Hg), (at_cur _ _ _ Hg), G1, G2, G3. reflexivity.
  - reflexivity.
  - cbn [set_names l_cur]. exact Gc.
Qed.

(** ** The three kinds of text *)
Definition element_runs (e : element) : Prop := forall src i f L p m m' b r,
  hd 0 src <> 0xEF -> state src i f p m -> top L f -> skipn i src = b ++ spelled e ++ r -> blanks b ->
  element_fine p m (blank_before b) e r -> braces m e = Some m' ->
  exists t ts f1 n n',
    next_token L = Ok (t, Lexer f1 KBase n) /\ nested f1 (pos_of src (i + length b + length (spelled e))) n ts n' /\
    quiet (t :: ts) = element_tokens src (i + length b) (blank_before b) e /\ Forall usable (t :: ts) /\
    (length (t :: ts) <= length (spelled e))%nat /\
    match e with E_word _ => ts = [] | E_literal _ _ _ _ et _ => exists ts' u, ts = ts' ++ [u] /\ ty u = et end /\
    state src (i + length b + length (spelled e)) (set_cur f1 (pos_of src (i + length b + length (spelled e))))
      (Place (prev p) (naming (after p m e)) (setter (after p m e))) m' /\
    (forall u, is_valid (ty u) = true ->
     state src (i + length b + length (spelled e)) (set_last (set_cur f1 (pos_of src (i + length b + length (spelled e)))) u)
       (Place (ty u) (naming (after p m e)) (setter (after p m e))) m').
Definition parts_run (ps : parts) : Prop := forall src i a b et g r,
  hd 0 src <> 0xEF -> delimiter_ok a b -> simple_ty et -> parts_fine a b ps (b :: r) -> inside src i a b g -> skipn i src = inner ps ++ b :: r ->
  exists ts g', lemits (Lexer g (KStr InProgress et true) None) ts (Lexer g' (KStr Done et true) None) /\
    quiet ts = parts_tokens src i et ps /\ Forall usable ts /\ (length ts <= length (inner ps) + 1)%nat /\
    (exists ts' u, ts = ts' ++ [u] /\ ty u = et) /\ l_cur g' = pos_of src (i + length (inner ps) + 1).
Definition code_runs (c : items) : Prop := forall src i f L p d r,
  hd 0 src <> 0xEF -> state src i f p (Some d) -> top L f -> prev p = T_Invalid -> skipn i src = text c ++ "}"%ch :: r ->
  items_fine p (Some d) c ("}"%ch :: r) ->
  exists ts L' e f', lemits L ts L' /\ next_token L' = Ok (e, Lexer f' KBase None) /\ is_eof (ty e) = true /\
    l_cur f' = pos_of src (i + length (text c)) /\ quiet ts = items_tokens src i c /\ Forall usable ts /\
    (length ts <= length (text c))%nat.

Lemma usable_simple src i t l ws : simple_ty t -> usable (token_at src i t l ws).
Proof. intros (H1 & H2 & H3 & H4 & H5). repeat split; auto. Qed.
Lemma text_token_usable src i bytes : Forall usable (text_token src i bytes).
Proof. destruct bytes; cbn [text_token]; [constructor|]. constructor; [apply usable_simple; repeat split|constructor]. Qed.
Lemma text_token_quiet src i bytes : quiet (text_token src i bytes) = text_token src i bytes.
Proof. destruct bytes; reflexivity. Qed.
Lemma text_token_len src i ps : (length (text_token src i (body_bytes ps)) <= length (body_text ps))%nat.
Proof.
  pose proof (body_len ps) as H. destruct ps as [|p ps]; [cbn; lia|]. cbn [length] in H.
  destruct (body_bytes (p :: ps)); cbn [text_token length]; lia.
Qed.
Lemma skip_further {A} (l u v : list A) i : skipn i l = u ++ v -> skipn (i + length u) l = v.
Proof. intros E. rewrite Nat.add_comm, skipn_add, E, skipn_app, skipn_all, Nat.sub_diag. reflexivity. Qed.
Lemma braces_some d e m' : braces (Some d) e = Some m' -> exists d', m' = Some d'.
Proof. destruct e as [l|op a b bt et ps]; [destruct l; try (destruct t)|]; destruct d; cbn [braces]; intros H; inversion H; eauto. Qed.

Lemma tree_runs : (forall e, element_runs e) /\ (forall ps, parts_run ps) /\ (forall c, code_runs c).
Proof.
  apply tree_ind.
  - intros l src i f L p m m' b r Hbom St Htop Ei Hb [Hs Hf] Hm.
    destruct (step src i f L p m m' b l r St Htop Ei Hb Hs Hf Hm Hbom) as (f' & Hnext & Ei' & Hlast & Hkeep).
    cbn [spelled] in *. set (j := (i + length b + length (spelling l))%nat) in *.
    assert (Hc : l_cur f' = pos_of src j) by apply Hkeep.
    assert (Hsc : set_cur f' (pos_of src j) = f') by (rewrite <- Hc; apply set_cur_same).
    assert (Hna : naming (after p m (E_word l)) = naming (behind p l) /\ setter (after p m (E_word l)) = setter (behind p l)) by (destruct m; auto).
    destruct Hna as [Hn1 Hn2]. rewrite Hn1, Hn2.
    set (t := raw_of l (line_of src (i + length b)) (col_of src (i + length b)) (blank_before b)) in *.
    assert (Ht : usable t /\ quiet [t] = element_tokens src (i + length b) (blank_before b) (E_word l)).
    { cbn [element_tokens]. unfold t, raw_of. destruct (token_of l _ _ _) as [u|] eqn:Et.
      - pose proof (token_of_type _ _ _ _ _ Et) as Ety. destruct (lexeme_plain l _ Hs Ety) as (V1 & V2 & V3 & V4 & V5 & _ & _).
        split; [repeat split; auto|]. unfold quiet. cbn [filter]. rewrite V3. reflexivity.
      - split; [repeat split; auto|reflexivity]. }
    destruct Ht as [Hu Hq].
    exists t, [], f', None, None. rewrite Hsc. split; [exact Hnext|]. split; [constructor; exact Hc|]. split; [exact Hq|]. split; [constructor; [exact Hu|constructor]|].
    split; [|auto]. destruct (spelling_start l [] Hs) as (x & w & Ex & _). rewrite app_nil_r in Ex. rewrite Ex. cbn [length]. lia.
  - intros op a c bt et ps IH src i f L p m m' b r Hbom St Htop Ei Hb (Ho & Hnam & Hap & Hlev & Hps) Hm.
    cbn [spelled] in *. rewrite <- !app_assoc in Ei.
    destruct (literal_open src i f L p m b op a c bt et (inner ps ++ [c] ++ r) St Htop Ei Hb Ho Hnam Hap Hlev) as (f1 & g & Hnext & Hin & St1 & St2).
    destruct (opening_ok _ _ _ _ _ Ho) as [Hdel He]. destruct (opening_simple _ _ _ _ _ Ho) as [Hs1 Hs2].
    assert (Ei2 : skipn (i + length b + length op) src = inner ps ++ c :: r) by (apply skip_further, skip_further; exact Ei).
    destruct (IH src _ a c et g r Hbom Hdel Hs2 Hps Hin Ei2) as (ts & g' & E1 & E2 & E3 & E4 & E5 & E6).
    assert (Hj : (i + length b + length op + length (inner ps) + 1 = i + length b + length (op ++ inner ps ++ [c]))%nat) by (rewrite !app_length; cbn [length]; lia).
    rewrite Hj in E6. set (j := (i + length b + length (op ++ inner ps ++ [c]))%nat) in *.
    assert (Hmm : m' = m) by (destruct m as [[|d]|]; cbn [braces] in Hm; congruence). subst m'.
    assert (Hna : naming (after p m (E_literal op a c bt et ps)) = false /\ setter (after p m (E_literal op a c bt et ps)) = false).
    { destruct m; cbn [after naming setter]; rewrite Hnam; auto. }
    destruct Hna as [Hn1 Hn2]. rewrite Hn1, Hn2.
    exists (token_at src (i + length b) bt (Some [a]) (blank_before b)), ts, f1, (Some (Lexer g (KStr InProgress et true) None)), (Some (Lexer g' (KStr Done et true) None)).
    split; [exact Hnext|]. split; [constructor; [exact E1|constructor|exact E6]|].
    split; [rewrite quiet_cons by apply Hs1; rewrite E2; reflexivity|].
    split; [constructor; [apply usable_simple; exact Hs1|exact E3]|].
    split; [|split; [exact E5|auto]].
    destruct (opening_head _ _ _ _ _ Ho) as (x & w & Ex & _). rewrite Ex, !app_length. cbn [length]. clear - E4. lia.
  - intros ps src i a b et g r Hbom Hdel Hs Hok Hin Ei. cbn [parts_fine inner parts_tokens] in *. assert (He : is_eof et = false) by apply Hs.
    destruct (end_emits src i a b et ps g r Hdel Hok He Hin Ei) as (g' & E1 & E2).
    exists (text_token src i (body_bytes ps) ++ [token_at src (i + length (body_text ps) + 1) et None false]), g'. split; [exact E1|].
    split; [rewrite quiet_app, text_token_quiet, quiet_cons by apply Hs; reflexivity|].
    split; [apply Forall_app; split; [apply text_token_usable|constructor; [apply usable_simple; exact Hs|constructor]]|].
    split; [rewrite app_length; pose proof (text_token_len src i ps) as Hl; cbn [length]; clear - Hl; lia|].
    split; [|exact E2]. eexists _, _. split; reflexivity.
  - intros ps code IHc more IHm src i a b et g r Hbom Hdel Hs (Hb & Hcode & Hmore) Hin Ei. cbn [inner parts_tokens] in *.
    rewrite <- !app_assoc in Ei. 
    destruct (begin_emits src i a b et ps g (text code ++ "}"%ch :: inner more ++ b :: r) Hdel Hb Hin) as (g1 & B1 & B2).
    { rewrite Ei. reflexivity. }
    set (j := (i + length (body_text ps) + 2)%nat) in *.
    assert (Ej : skipn j src = text code ++ "}"%ch :: inner more ++ b :: r).
    { unfold j. rewrite (app_assoc _ ["#"; "{"]%ch) in Ei. change ((text code ++ "}"%ch :: inner more) ++ b :: r) with ((text code ++ ("}"%ch :: inner more)) ++ b :: r) in Ei.
      replace (i + length (body_text ps) + 2)%nat with (i + length (body_text ps ++ ["#"; "{"]%ch))%nat by (rewrite app_length; cbn [length]; lia).
      apply skip_further. rewrite Ei. reflexivity. }
    assert (St : state src j (sub_lx g1 "{"%ch "}"%ch) start (Some O)).
    { destruct B2 as [I1 I2 I3 _ _ _]. constructor; auto. constructor; auto. }
    destruct (IHc src j _ _ start O (inner more ++ b :: r) Hbom St (top_plain _) eq_refl Ej Hcode) as (ts & L' & e & f' & C1 & C2 & C3 & C4 & C5 & C6 & C7).
    set (k := (j + length (text code))%nat) in *.
    assert (Ek : skipn k src = "}"%ch :: inner more ++ b :: r) by (apply skip_further; exact Ej).
    destruct (resume_emits src k a b et g1 L' e f' _ (inside_cur _ _ _ _ _ k B2) Ek C2 C3 C4) as (g2 & R1 & R2).
    assert (Ek1 : skipn (k + 1) src = inner more ++ b :: r) by (apply (skip_further src ["}"%ch]); exact Ek).
    destruct (IHm src (k + 1)%nat a b et g2 r Hbom Hdel Hs Hmore R2 Ek1) as (ts2 & g3 & D1 & D2 & D3 & D4 & (ts' & u & D5 & D6) & D7).
    set (bt := token_at src (match body_bytes ps with [] => i | _ => j end) T_EvaluateToStringBegin None false) in *.
    set (en := token_at src k T_EvaluateToStringEnd None false) in *.
    exists ((text_token src i (body_bytes ps) ++ [bt]) ++ ts ++ en :: ts2), g3. split; [|split; [|split; [|split; [|split]]]].
    + eapply lemits_app; [exact B1|]. eapply lemits_app; [apply lemits_nest; exact C1|]. eapply lemits_cons; [exact R1|reflexivity|exact D1].
    + rewrite !quiet_app, text_token_quiet, C5. rewrite (quiet_cons en) by reflexivity. rewrite D2, <- app_assoc. reflexivity.
    + apply Forall_app. split; [apply Forall_app; split; [apply text_token_usable|]|apply Forall_app; split; [exact C6|constructor; [|exact D3]]].
      * constructor; [apply usable_simple; repeat split|constructor].
      * apply usable_simple; repeat split.
    + rewrite !app_length. cbn [length]. rewrite ?app_length. cbn [length]. rewrite ?app_length. cbn [length]. pose proof (text_token_len src i ps) as Hl. clear - Hl C7 D4. lia.
    + exists ((text_token src i (body_bytes ps) ++ [bt]) ++ ts ++ en :: ts'), u. split; [|exact D6]. rewrite D5, <- !app_assoc. reflexivity.
    + rewrite D7. f_equal. rewrite !app_length. cbn [length]. rewrite ?app_length. cbn [length]. rewrite ?app_length. cbn [length]. unfold k, j. clear; lia.
  - intros tail src i f L p d r Hbom St Htop Hp Ei (Hb & Hlev). cbn [text items_tokens] in *.
    assert (d = O) by (destruct Hlev; congruence). subst d.
    destruct (code_end src i f L p tail r St Htop Ei Hb) as (e & f' & H1 & H2 & H3).
    exists [], L, e, f'. split; [constructor|]. split; [exact H1|]. split; [exact H2|]. split; [exact H3|]. split; [reflexivity|]. split; [constructor|cbn [length]; lia].
  - intros b e IHe more IHm src i f L p d r Hbom St Htop Hp Ei (Hb & He & Hm). cbn [text items_tokens] in *. rewrite <- !app_assoc in Ei.
    destruct (braces (Some d) e) as [m'|] eqn:Em; [|contradiction]. destruct (braces_some _ _ _ Em) as [d' ->].
    destruct (IHe src i f L p (Some d) (Some d') b _ Hbom St Htop Ei Hb He Em) as (t & ts & f1 & n & n' & H1 & H2 & H3 & H4 & H5 & _ & H7 & _).
    set (j := (i + length b + length (spelled e))%nat) in *.
    assert (Ej : skipn j src = text more ++ "}"%ch :: r) by (apply skip_further, skip_further; exact Ei).
    assert (Hpl : Place (prev p) (naming (after p (Some d) e)) (setter (after p (Some d) e)) = after p (Some d) e) by (rewrite Hp; reflexivity).
    rewrite Hpl in H7.
    destruct (IHm src j _ _ (after p (Some d) e) d' r Hbom H7 (nested_top _ _ _ _ _ H2 f1 eq_refl) eq_refl Ej Hm) as (ts2 & L' & x & f' & C1 & C2 & C3 & C4 & C5 & C6 & C7).
    assert (Ht : is_eof (ty t) = false) by (inversion H4 as [|? ? Hu _]; apply Hu).
    exists ((t :: ts) ++ ts2), L', x, f'. split; [eapply lemits_app; [eapply nested_lemits; eauto|exact C1]|]. split; [exact C2|]. split; [exact C3|].
    split; [rewrite C4; f_equal; unfold j; rewrite !app_length; lia|].
    split; [rewrite quiet_app, H3, C5; reflexivity|]. split; [apply Forall_app; auto|]. rewrite !app_length. cbn [length] in *. clear - H5 C7. lia.
Qed.

(** ** The outermost text *)
Definition keep (u t : token) : token := if is_comment (ty t) || (newline (ty t) && opens_line (ty u)) then u else t.

Lemma loop_one L t l acc u fuel : next_token L = Ok (t, l) -> usable t ->
  tokens_loop (S fuel) L acc (opens_line (ty u)) None =
  tokens_loop fuel (if is_comment (ty t) || (newline (ty t) && opens_line (ty u)) then l else record_last l t)
    (fold_left push (drop_after (ty u) (quiet [t])) acc) (opens_line (ty (keep u t))) None.
Proof.
  intros H (U1 & U2 & U3). cbn [tokens_loop]. rewrite H. cbn [bind]. unfold keep, quiet. cbn [filter].
  destruct (is_comment (ty t)) eqn:Ec; [reflexivity|]. destruct U3 as [U3|U3]; [discriminate|].
  rewrite U1, newline_is, andb_comm. cbn [negb orb drop_after]. destruct (newline (ty t) && opens_line (ty u)) eqn:En; [reflexivity|].
  rewrite U2, U3, closes_line_is, opens_line_is. reflexivity.
Qed.
Lemma drop_keep ts : forall u B, drop_after (ty u) (quiet ts ++ B) = drop_after (ty u) (quiet ts) ++ drop_after (ty (fold_left keep ts u)) B.
Proof.
  induction ts as [|t ts IH]; intros u B; [reflexivity|]. cbn [fold_left]. unfold quiet in *. cbn [filter].
  change (keep u t) with (if is_comment (ty t) || (newline (ty t) && opens_line (ty u)) then u else t).
  destruct (is_comment (ty t)); cbn [negb orb]; [apply IH|]. cbn [app drop_after].
  destruct (newline (ty t) && opens_line (ty u)); [apply IH|]. cbn [app]. f_equal. apply IH.
Qed.
Lemma loop_nested s ts s' : lemits s ts s' -> Forall usable ts -> forall f acc fuel,
  tokens_loop (length ts + fuel) (Lexer f KBase (Some s)) acc (opens_line (ty (l_last f))) None =
  tokens_loop fuel (Lexer (set_last f (fold_left keep ts (l_last f))) KBase (Some s'))
    (fold_left push (drop_after (ty (l_last f)) (quiet ts)) acc) (opens_line (ty (fold_left keep ts (l_last f)))) None.
Proof.
  induction 1 as [s|s t s1 ts s2 H1 He H2 IH]; intros Hu f acc fuel.
  - cbn [length Nat.add fold_left]. rewrite set_last_same. reflexivity.
  - inversion Hu as [|? ? Ut Uts]; subst.
    assert (Hn : next_token (Lexer f KBase (Some s)) = Ok (t, Lexer f KBase (Some s1))) by (cbn [next_token]; rewrite H1; cbn [bind]; rewrite He; reflexivity).
    cbn [length Nat.add]. rewrite (loop_one _ _ _ _ _ _ Hn Ut).
    assert (Hk : (if is_comment (ty t) || (newline (ty t) && opens_line (ty (l_last f))) then Lexer f KBase (Some s1) else record_last (Lexer f KBase (Some s1)) t)
      = Lexer (set_last f (keep (l_last f) t)) KBase (Some s1)).
    { unfold keep. destruct (_ || _); [rewrite set_last_same; reflexivity|reflexivity]. }
    rewrite Hk. specialize (IH Uts (set_last f (keep (l_last f) t)) (fold_left push (drop_after (ty (l_last f)) (quiet [t])) acc) fuel).
    cbn [set_last l_last] in IH. rewrite IH. cbn [fold_left]. f_equal.
    change (t :: ts) with ([t] ++ ts). rewrite quiet_app, drop_keep, fold_left_app. reflexivity.
Qed.
Lemma loop_element L t f c n ts n' acc u fuel : next_token L = Ok (t, Lexer f KBase n) -> nested f c n ts n' -> Forall usable (t :: ts) -> l_last f = u ->
  tokens_loop (length (t :: ts) + fuel) L acc (opens_line (ty u)) None =
  tokens_loop fuel (Lexer (set_last f (fold_left keep (t :: ts) u)) KBase n')
    (fold_left push (drop_after (ty u) (quiet (t :: ts))) acc) (opens_line (ty (fold_left keep (t :: ts) u))) None.
Proof.
  intros H Hn Hu <-. inversion Hu as [|? ? Ut Uts]; subst. cbn [length Nat.add]. rewrite (loop_one _ _ _ _ _ _ H Ut).
  assert (Hk : forall n, (if is_comment (ty t) || (newline (ty t) && opens_line (ty (l_last f))) then Lexer f KBase n else record_last (Lexer f KBase n) t)
      = Lexer (set_last f (keep (l_last f) t)) KBase n).
  { intros x. unfold keep. destruct (_ || _); [rewrite set_last_same; reflexivity|reflexivity]. }
  rewrite Hk. destruct Hn as [E|s ts g k E Hk' Eg]; [reflexivity|].
  pose proof (loop_nested _ _ _ E Uts (set_last f (keep (l_last f) t)) (fold_left push (drop_after (ty (l_last f)) (quiet [t])) acc) fuel) as IH.
  cbn [set_last l_last] in IH. rewrite IH. cbn [fold_left]. f_equal.
  change (t :: ts) with ([t] ++ ts). rewrite quiet_app, drop_keep, fold_left_app. reflexivity.
Qed.

Lemma tree_run src : hd 0 src <> 0xEF -> forall c i f L p fuel acc,
  state src i f p None -> top L f -> skipn i src = text c -> (i <= length src)%nat -> items_fine p None c [] -> (length (text c) < fuel)%nat ->
  tokens_loop fuel L acc (opens_line (prev p)) None =
    Ok (rev (fold_left push (drop_after (prev p) (items_tokens src i c)) acc) ++ [end_token src (tail_of c)]).
Proof.
  intros Hbom. induction c as [tail|b e more IH]; intros i f L p fuel acc St Htop Ei Hi Hfine Hfuel.
  - destruct fuel as [|fuel]; [lia|]. cbn [items_fine text items_tokens tail_of drop_after fold_left] in *. destruct Hfine as [Hb _].
    eapply text_end; eauto. assert (E : length (skipn i src) = length tail) by congruence. rewrite skipn_length in E. lia.
  - cbn [items_fine text items_tokens tail_of] in *. destruct Hfine as (Hb & He & Hm). rewrite app_nil_r in He.
    destruct (braces None e) as [m'|] eqn:Em; [|contradiction].
    assert (m' = None) by (destruct e as [l|]; [destruct l|]; cbn [braces] in Em; congruence). subst m'.
    destruct (proj1 tree_runs e src i f L p None None b (text more) Hbom St Htop Ei Hb He Em) as (t & ts & f1 & n & n' & H1 & H2 & H3 & H4 & H5 & H6 & H7 & H8).
    set (j := (i + length b + length (spelled e))%nat) in *.
    assert (Ej : skipn j src = text more) by (apply skip_further, skip_further; exact Ei).
    assert (Hj : (j <= length src)%nat).
    { assert (E : length (skipn i src) = length (b ++ spelled e ++ text more)) by congruence. rewrite skipn_length, !app_length in E. unfold j. lia. }
    assert (Hpl : ty (l_last f1) = prev p) by (destruct H7 as [_ _ _ _ _ _ _ Hh]; exact (hr_prev _ _ Hh)).
    rewrite !app_length in Hfuel. remember (fuel - length (t :: ts))%nat as fuel' eqn:Ef.
    assert (Hf : fuel = (length (t :: ts) + fuel')%nat) by (clear - Ef H5 Hfuel; lia).
    assert (Hf' : (length (text more) < fuel')%nat) by (clear - Hf H5 Hfuel; lia). clear Ef.
    rewrite Hf, <- Hpl. rewrite (loop_element L t f1 _ n ts n' acc (l_last f1) fuel' H1 H2 H4 eq_refl).
    rewrite <- H3, drop_keep, fold_left_app. set (u := fold_left keep (t :: ts) (l_last f1)) in *.
    assert (Hend : after p None e = Place (ty u) (naming (after p None e)) (setter (after p None e)) /\
      state src j (set_cur (set_last f1 u) (pos_of src j)) (Place (ty u) (naming (after p None e)) (setter (after p None e))) None).
    { rewrite set_cur_last. destruct e as [l|op a c bt et ps].
      - subst ts. unfold u. cbn [fold_left]. unfold keep. cbn [element_fine] in He. destruct He as [Hs _].
        assert (Hty : match lexeme_type l with Some x => ty t = x /\ is_comment (ty t) = false | None => is_comment (ty t) = true end).
        { cbn [element_tokens] in H3. destruct (token_of l _ _ _) as [y|] eqn:Et.
          - rewrite (token_of_type _ _ _ _ _ Et). unfold quiet in H3. cbn [filter] in H3. destruct (is_comment (ty t)); [discriminate|]. injection H3 as ->. auto.
          - rewrite (token_of_none _ _ _ _ Et). unfold quiet in H3. cbn [filter] in H3. destruct (is_comment (ty t)); [reflexivity|discriminate]. }
        assert (Hkeep : state src j (set_last (set_cur f1 (pos_of src j)) (l_last f1))
            (Place (ty (l_last f1)) (naming (after p None (E_word l))) (setter (after p None (E_word l)))) None).
        { replace (set_last (set_cur f1 (pos_of src j)) (l_last f1)) with (set_cur f1 (pos_of src j)) by (destruct f1; reflexivity). rewrite Hpl. exact H7. }
        cbn [after] in *. unfold behind in *. rewrite Hpl in *. destruct (lexeme_type l) as [x|]; cbn [naming setter] in *.
        + destruct Hty as [<- Hnc]. rewrite Hnc. cbn [orb]. destruct (newline (ty t) && opens_line (prev p)) eqn:En; cbn [naming setter].
          * rewrite Hpl. split; [reflexivity|exact Hkeep].
          * split; [reflexivity|]. apply H8. inversion H4 as [|? ? (_ & _ & U) _]; subst. destruct U as [U|U]; [congruence|exact U].
        + rewrite Hty. cbn [orb]. rewrite Hpl. split; [reflexivity|exact Hkeep].
      - destruct H6 as (ts' & v & E & Ev). assert (Eu : u = v).
        { unfold u. rewrite E. change (t :: ts' ++ [v]) with ((t :: ts') ++ [v]). rewrite fold_left_app. cbn [fold_left]. match goal with |- keep ?x ?y = _ => change (keep x y) with (if is_comment (ty y) || (newline (ty y) && opens_line (ty x)) then x else y) end.
          cbn [element_fine] in He. destruct He as [Ho _]. destruct (opening_simple _ _ _ _ _ Ho) as [_ (C1 & C2 & C3 & _)].
          rewrite Ev, C1, <- newline_is, C3. reflexivity. }
        rewrite Eu, Ev. split; [reflexivity|]. rewrite <- Ev. apply H8. rewrite Ev. cbn [element_fine] in He. destruct He as [Ho _].
        destruct (opening_simple _ _ _ _ _ Ho) as [_ (_ & _ & _ & _ & C)]. exact C. }
    destruct Hend as [Hpl2 Hst]. rewrite Hpl2 in Hm.
    change (ty u) with (prev (Place (ty u) (naming (after p None e)) (setter (after p None e)))).
    apply (IH j _ _ _ fuel' _ Hst); auto. apply (nested_top _ _ _ _ _ H2). reflexivity.
Qed.

Theorem tree_tokens c fuel : items_fine start None c [] -> hd 0 (text c) <> 0xEF -> (length (text c) < fuel)%nat ->
  tokens fuel (text c) = Ok (text_tokens_of c).
Proof.
  intros Hf Hb Hn. unfold tokens. pose proof (tree_run (text c) Hb c 0 (new_lx (text c)) (Lexer (new_lx (text c)) KBase None) start fuel []) as H.
  change (opens_line (prev start)) with false in H. rewrite H; auto using top_plain.
  - unfold text_tokens_of. f_equal. f_equal. apply (push_all _ [] []). reflexivity.
  - constructor; try reflexivity. constructor; try reflexivity. left. reflexivity.
  - lia.
Qed.

(** ** The same code elsewhere *)
Lemma tree_same src src' : (forall e i i' ws, map value (element_tokens src i ws e) = map value (element_tokens src' i' ws e)) /\
  (forall ps i i' et, map value (parts_tokens src i et ps) = map value (parts_tokens src' i' et ps)) /\
  (forall c i i', map value (items_tokens src i c) = map value (items_tokens src' i' c)).
Proof.
  assert (T : forall i i' bytes, map value (text_token src i bytes) = map value (text_token src' i' bytes)) by (intros i i' [|x bytes]; reflexivity).
  apply tree_ind.
  - intros l i i' ws. cbn [element_tokens].
    pose proof (token_of_same l (line_of src i) (col_of src i) ws (line_of src' i') (col_of src' i') ws) as H.
    destruct (token_of l (line_of src i) _ _), (token_of l (line_of src' i') _ _); try contradiction; [|reflexivity]. cbn [map]. f_equal. exact H.
  - intros op a b bt et ps IH i i' ws. cbn [element_tokens map]. f_equal. apply IH.
  - intros ps i i' et. cbn [parts_tokens]. rewrite !map_app. f_equal. apply T.
  - intros ps code IHc more IHm i i' et. cbn [parts_tokens]. rewrite !map_app. f_equal; [apply T|]. cbn [map]. f_equal.
    rewrite !map_app. f_equal; [apply IHc|]. cbn [map]. f_equal. apply IHm.
  - reflexivity.
  - intros b e IHe more IHm i i'. cbn [items_tokens]. rewrite !map_app. f_equal; [apply IHe|apply IHm].
Qed.

(** The code between the braces of a string. *)
Definition quoted (c : items) : items :=
  I_item [] (E_literal (s2l """") """"%ch """"%ch T_InterpolatedStringBegin T_InterpolatedStringEnd (P_code [] c (P_end []))) (I_end []).
Theorem same_code c fuel : items_fine start None c [] -> items_fine start (Some O) c (s2l "}""") -> hd 0 (text c) <> 0xEF ->
  (length (text c) + 5 < fuel)%nat ->
  exists ts us e1 e2 t1 t2 t3 t4,
    tokens fuel (text c) = Ok (drop_before (drop_after T_Invalid ts) ++ [e1]) /\
    tokens fuel (text (quoted c)) = Ok (drop_before (drop_after T_Invalid (t1 :: t2 :: us ++ [t3; t4])) ++ [e2]) /\
    map value us = map value ts /\
    map ty [t1; t2; t3; t4; e1; e2] =
      [T_InterpolatedStringBegin; T_EvaluateToStringBegin; T_EvaluateToStringEnd; T_InterpolatedStringEnd; T_Eof; T_Eof].
Proof.
  intros H1 H2 Hb Hf.
  pose proof (tree_tokens c fuel H1 Hb ltac:(lia)) as A.
  assert (Hq : items_fine start None (quoted c) []).
  { cbn [quoted items_fine element_fine parts_fine text inner app braces after]. split; [constructor|]. split; [|split; [constructor|left; reflexivity]].
    split; [constructor|]. split; [reflexivity|]. split; [discriminate|]. split; [left; reflexivity|]. repeat split. exact H2. }
  assert (Hl : (length (text (quoted c)) < fuel)%nat).
  { cbn [quoted text spelled inner body_text map concat app]. repeat (progress (rewrite ?app_length; cbn [length])).
    change (length (s2l """")) with 1%nat. clear - Hf. lia. }
  pose proof (tree_tokens (quoted c) fuel Hq ltac:(discriminate) Hl) as B.
  unfold text_tokens_of in A, B. rewrite A, B. set (src := text (quoted c)).
  cbn [quoted items_tokens element_tokens parts_tokens body_bytes text_token map concat app length Nat.add body_text blank_before existsb].
  exists (items_tokens (text c) 0 c). do 7 eexists. split; [reflexivity|]. split; [|split].
  - f_equal. f_equal. f_equal. f_equal. f_equal. f_equal. rewrite <- app_assoc. reflexivity.
  - apply tree_same.
  - reflexivity.
Qed.

(** * PropPlace: the same text at another place *)
From Coq Require Import Strings.String NArith ZArith Bool Arith List Lia.
From Verif Require Import Base Token Spec SpecLit SpecPlace LexModel LexShift LexPaste LexIndent LexAfter.
Import ListNotations.
Open Scope list_scope.
Open Scope N_scope.

(** ** C24: leading blanks shift the columns of the first line and change nothing else *)

Theorem C24_leading_blanks : forall b s fuel ts,
  Forall (fun c => c = " "%ch \/ c = ch_tab) b -> b <> [] -> bytes s -> small s ->
  nth 0 s 0 <> 0xEF -> firstn 6 s <> s2l "=begin" -> firstn 2 s <> s2l "<<" ->
  tokens fuel s = Ok ts -> exists us, tokens fuel (b ++ s) = Ok us /\ indented_by (length b) ts us.
Proof.
  intros b s fuel ts H1 H2 H3 H4 H5 H6 H7 E.
  pose proof (indent_tokens b s H1 H2 H3 H4 H5 H6 H7 fuel) as R. rewrite E in R.
  destruct (tokens fuel (b ++ s)) as [us| |]; cbn [related] in R; [eauto|destruct R..].
Qed.
Theorem C24_leading_blanks_abort : forall b s fuel r,
  Forall (fun c => c = " "%ch \/ c = ch_tab) b -> b <> [] -> bytes s -> small s ->
  nth 0 s 0 <> 0xEF -> firstn 6 s <> s2l "=begin" -> firstn 2 s <> s2l "<<" ->
  tokens fuel s = Crash r -> tokens fuel (b ++ s) = Crash r.
Proof.
  intros b s fuel r H1 H2 H3 H4 H5 H6 H7 E.
  pose proof (indent_tokens b s H1 H2 H3 H4 H5 H6 H7 fuel) as R. rewrite E in R.
  destruct (tokens fuel (b ++ s)); cbn [related] in R; [destruct R|congruence|destruct R].
Qed.
(** The three exceptions are needed. *)
Theorem C24_comment_refuted :
  ~ (forall b s fuel ts, Forall (fun c => c = " "%ch \/ c = ch_tab) b -> b <> [] -> bytes s -> small s ->
       nth 0 s 0 <> 0xEF -> firstn 2 s <> s2l "<<" ->
       tokens fuel s = Ok ts -> exists us, tokens fuel (b ++ s) = Ok us /\ indented_by (length b) ts us).
Proof.
  intros H. destruct (H [" "%ch] (s2l "=begin" ++ [ch_nl] ++ s2l "=end") 40%nat [Tok T_Eof None None 0 [] 1 4 false]) as (us & U1 & U2);
    [repeat constructor|discriminate|repeat constructor|unfold small; cbn; lia|discriminate|discriminate|reflexivity|].
  vm_compute in U1. injection U1 as <-. cbn in U2. destruct U2 as [_ U2]. discriminate.
Qed.
Theorem C24_heredoc_refuted :
  ~ (forall b s fuel ts, Forall (fun c => c = " "%ch \/ c = ch_tab) b -> b <> [] -> bytes s -> small s ->
       nth 0 s 0 <> 0xEF -> firstn 6 s <> s2l "=begin" ->
       tokens fuel s = Ok ts -> exists us, tokens fuel (b ++ s) = Ok us /\ indented_by (length b) ts us).
Proof.
  intros H. destruct (tokens 40 (s2l "<<1")) as [ts| |] eqn:E; [|vm_compute in E; discriminate..].
  destruct (H [" "%ch] (s2l "<<1") 40%nat ts) as (us & U1 & U2); [repeat constructor|discriminate|repeat constructor|unfold small; cbn; lia|discriminate|discriminate|exact E|].
  vm_compute in E. injection E as <-. vm_compute in U1. injection U1 as <-. cbn in U2. destruct U2 as [[U2|U2] _]; discriminate.
Qed.
Theorem C24_mark_refuted :
  ~ (forall b s fuel ts, Forall (fun c => c = " "%ch \/ c = ch_tab) b -> b <> [] -> bytes s -> small s ->
       firstn 6 s <> s2l "=begin" -> firstn 2 s <> s2l "<<" ->
       tokens fuel s = Ok ts -> exists us, tokens fuel (b ++ s) = Ok us /\ indented_by (length b) ts us).
Proof.
  intros H. destruct (tokens 40 ([0xEF; 0xBB; 0xBF] ++ s2l "a")) as [ts| |] eqn:E; [|vm_compute in E; discriminate..].
  destruct (H [" "%ch] ([0xEF; 0xBB; 0xBF] ++ s2l "a") 40%nat ts) as (us & U1 & U2);
    [repeat constructor|discriminate|repeat constructor|unfold small; cbn; lia|discriminate|discriminate|exact E|].
  vm_compute in E. injection E as <-. vm_compute in U1. injection U1 as <-. cbn in U2. destruct U2 as [[U2|U2] _]; discriminate.
Qed.
Example C24_example :
  let s := s2l "x = ""a#{b}"" # c" ++ [ch_nl] ++ s2l "  [y]" in
  bytes s /\ small s /\ nth 0 s 0 <> 0xEF /\ firstn 6 s <> s2l "=begin" /\ firstn 2 s <> s2l "<<" /\
  exists ts us, tokens 40 s = Ok ts /\ tokens 40 ([" "%ch; ch_tab] ++ s) = Ok us /\
    map (fun t => (ty t, tk_line t, tk_col t, tk_ws t)) (firstn 2 ts) = [(T_BareName, 0, 0, false); (T_Equal, 0, 2, true)]%nat /\
    map (fun t => (ty t, tk_line t, tk_col t, tk_ws t)) (firstn 2 us) = [(T_BareName, 0, 2, true); (T_Equal, 0, 4, true)]%nat /\
    skipn 10 us = skipn 10 ts /\ (length ts = 13)%nat.
Proof.
  cbv zeta. split; [repeat constructor|]. split; [unfold small; cbn; lia|]. do 3 (split; [discriminate|]).
  do 2 eexists. split; [vm_compute; reflexivity|]. split; [vm_compute; reflexivity|]. repeat split.
Qed.

(** ** C31: a text behind a newline has the tokens it has alone *)

Lemma opens t : t <> T_Newline -> ~ continues_line t -> is_newline t = false /\ can_follow_collapsible_newline t = false.
Proof.
  intros H1 H2. split; [destruct t; reflexivity || congruence|].
  destruct t; try reflexivity; exfalso; apply H2; unfold continues_line; cbn [In]; auto 10.
Qed.
(** The lexer, outside of every literal, at the beginning of the line behind [p]: the rest of the
    run gives the tokens of the rest [s] of the source, [n] lines further down. *)
Theorem C31_in_context : forall p s f n last base fuel skip t ts,
  l_input f = p ++ s -> l_size f = length (p ++ s) -> l_cur f = Cur (length p) n 0 -> l_heredocs f = [] ->
  l_last f = last -> ty last = T_Newline -> l_ternary f = false -> l_start f = 0 -> l_stop f = 0 -> l_depth f = 0%nat ->
  l_names f = names0 -> bytes s -> small s -> nth 0 s 0 <> 0xEF ->
  tokens fuel s = Ok (t :: ts) -> ty t <> T_Newline -> ~ continues_line (ty t) -> ty t <> T_InterpolatedRegexpBegin ->
  tokens_loop fuel (Lexer f KBase None) base skip None = Ok (rev base ++ map (moved n 0) (t :: ts)).
Proof.
  intros p s f n last base fuel skip t ts. destruct f. cbn.
  intros -> -> -> -> -> H6 -> -> -> -> -> H1 H2 H3 H4 H5 H7 H8.
  apply (after_newline p s n l_tline l_tcol l_ws last base fuel skip (t :: ts)); auto.
  intros u E. injection E as <-. destruct (opens _ H5 H7). auto.
Qed.
Theorem C31_after_word : forall c w s fuel t ts,
  ident_start c -> c <> 0xEF -> Forall ident_char w -> (forall k, ~ In (c :: w, k) reserved) ->
  bytes s -> small s -> nth 0 s 0 <> 0xEF ->
  tokens fuel s = Ok (t :: ts) -> ty t <> T_Newline -> ~ continues_line (ty t) -> ty t <> T_InterpolatedRegexpBegin ->
  exists a b, tokens (S (S fuel)) ((c :: w) ++ ch_nl :: s) = Ok (a :: b :: map (moved 1 0) (t :: ts))
    /\ lit a = Some (c :: w) /\ ty b = T_Newline.
Proof.
  intros c w s fuel t ts H1 H2 H3 H4 H5 H6 H7 H8 H9 H10 H11. do 2 eexists. split.
  - apply (word_then c w s fuel (t :: ts)); auto. intros u E. injection E as <-. destruct (opens _ H9 H10). auto.
  - split; reflexivity.
Qed.
(** Regular expressions are a true exception: the lexers nested in them inherit the last
    token, and [/#{def /}/] depends on it. *)
Theorem C31_regexp_refuted :
  ~ (forall c w s fuel t ts, ident_start c -> c <> 0xEF -> Forall ident_char w -> (forall k, ~ In (c :: w, k) reserved) ->
       bytes s -> small s -> nth 0 s 0 <> 0xEF ->
       tokens fuel s = Ok (t :: ts) -> ty t <> T_Newline -> ~ continues_line (ty t) ->
       exists a b, tokens (S (S fuel)) ((c :: w) ++ ch_nl :: s) = Ok (a :: b :: map (moved 1 0) (t :: ts))).
Proof.
  intros H. destruct (tokens 40 (s2l "/#{def / }/")) as [[|t ts]| |] eqn:E; [vm_compute in E; discriminate| |vm_compute in E; discriminate..].
  destruct (H "a"%ch [] (s2l "/#{def / }/") 40%nat t ts) as (a & b & T).
  - unfold ident_start. lia.
  - discriminate.
  - constructor.
  - intros k Hk. cbn [reserved In] in Hk. repeat (destruct Hk as [Hk|Hk]; [discriminate|]). exact Hk.
  - repeat constructor.
  - unfold small. cbn. lia.
  - discriminate.
  - exact E.
  - vm_compute in E. injection E as <- _. discriminate.
  - vm_compute in E. injection E as <- _. cbv. intuition discriminate.
  - vm_compute in E. injection E as <- <-. vm_compute in T. discriminate.
Qed.
Example C31_example :
  let s := s2l "# x" ++ [ch_nl] ++ s2l "def f" ++ [ch_nl] ++ s2l "end" in
  exists t ts, tokens 40 s = Ok (t :: ts) /\ bytes s /\ small s /\ ty t = T_DefKeyword /\ doc t = Some (s2l "# x" ++ [ch_nl]) /\ tk_line t = 1%nat /\
    exists a b, tokens 42 (s2l "foo" ++ ch_nl :: s) = Ok (a :: b :: map (moved 1 0) (t :: ts)).
Proof.
  cbv zeta. do 2 eexists. split; [vm_compute; reflexivity|]. split; [repeat constructor|]. split; [unfold small; cbn; lia|].
  do 3 (split; [reflexivity|]). do 2 eexists. vm_compute. reflexivity.
Qed.

Print Assumptions C24_leading_blanks.
Print Assumptions C24_leading_blanks_abort.
Print Assumptions C24_comment_refuted.
Print Assumptions C24_heredoc_refuted.
Print Assumptions C24_mark_refuted.
Print Assumptions C31_in_context.
Print Assumptions C31_after_word.
Print Assumptions C31_regexp_refuted.

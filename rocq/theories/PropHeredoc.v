(** * PropHeredoc: heredocs *)
From Coq Require Import Strings.String NArith ZArith Bool Arith List Lia ZifyBool ZifyNat ZifyN.
From Verif Require Import Base Token Spec SpecLit SpecHeredoc LexModel LexBasics LexRest LexFwd LexHereFwd LexHereSrc.
Import ListNotations.
Open Scope list_scope.
Open Scope N_scope.

Lemma value_text k ls v : Forall one_line ls -> small (unlines ls) -> heredoc_value k ls v -> heredoc_text k ls = v.
Proof.
  intros H1 H2 H3. destruct k; cbn [heredoc_value heredoc_text] in *; [auto..|].
  destruct H3 as (n & H3 & ->). apply dedent_unlines; assumption.
Qed.

(** ** C20: a heredoc's value is the text of the lines before the closing line *)

Theorem C20_raw_heredoc : forall k name ls t z v fuel,
  name_ok (Quoted "'"%ch) name -> Forall one_line ls -> Forall (fun l => ~ stops k name l) ls -> closing k name t ->
  z = [] \/ z = [ch_nl] -> small (unlines ls) -> heredoc_value k ls v -> (3 <= fuel)%nat ->
  exists ts, tokens fuel (raw_heredoc k name ls t z) = Ok ts /\
    shapes ts = [(T_String, Some v); (T_Newline, None); (T_Eof, None)].
Proof.
  intros k name ls t z v fuel H1 H2 H3 H4 H5 H6 H7 H8. rewrite <- (value_text k ls v H2 H6 H7).
  apply raw_source; assumption.
Qed.
(** In the middle of a line, after any other heredocs of that line, for all kinds of
    quotes.  The rest of the line [w] is lexed next; the place after the closing line
    is remembered.  A raw heredoc is one token; the body of the others goes to a
    nested lexer. *)
Theorem C20_in_context : forall f k q name w ls t z i v,
  at_text f (mark k ++ named q name ++ w) -> name_ok q name ->
  (q = Bare -> ~ ident_char (hd 0 w)) ->
  match l_heredocs f with
  | [] => exists tail r, w = tail ++ ch_nl :: r /\ one_line tail /\
            i = (l_idx f + length (mark k ++ named q name) + length tail + 1)%nat
  | last :: _ => i = last
  end ->
  skipn i (l_input f) = unlines ls ++ t ++ z ->
  Forall one_line ls -> Forall (fun l => ~ stops k name l) ls -> closing k name t ->
  (z = [] \/ exists m, z = ch_nl :: m) -> small (unlines ls) -> heredoc_value k ls v ->
  exists tok f' nested, consume_heredoc f = Ok (tok, f', nested) /\ at_text f' w /\
    (exists j, l_heredocs f' = j :: l_heredocs f /\ skipn j (l_input f) = tl z) /\
    match q with
    | Quoted 39 => ty tok = T_String /\ lit tok = Some v /\ nested = None
    | Quoted 96 => ty tok = T_InterpolatedShellBegin /\ exists g kd, nested = Some (Lexer g kd None) /\ at_text g v
    | _ => ty tok = T_InterpolatedStringBegin /\ exists g kd, nested = Some (Lexer g kd None) /\ at_text g v
    end.
Proof.
  intros f k q name w ls t z i v H1 H2 H3 H4 H5 H6 H7 H8 H9 H10 H11.
  pose proof (consume_heredoc_fwd f k q name w ls t z i H1 H2) as X. cbv zeta in X.
  rewrite X; auto.
  - rewrite (value_text k ls v H6 H10 H11).
    assert (Hw : at_text (advance_n (length (mark k ++ named q name)) f) w) by (apply at_adv_n; rewrite <- app_assoc; exact H1).
    set (g := advance_n _ f) in *.
    set (j := (i + length (unlines ls ++ t) + length (firstn 1 z))%nat).
    assert (J : skipn j (l_input f) = tl z).
    { unfold j. rewrite app_assoc in H5. apply skipn_app_n in H5. destruct H9 as [->|[m ->]].
      - cbn [firstn length tl]. rewrite Nat.add_0_r. exact H5.
      - cbn [firstn length tl]. rewrite Nat.add_1_r. apply skipn_cons in H5. exact H5. }
    assert (Y : exists tok n, heredoc_result q (set_heredocs g (j :: l_heredocs f)) v = (tok, set_heredocs g (j :: l_heredocs f), n) /\
      match q with
      | Quoted 39 => ty tok = T_String /\ lit tok = Some v /\ n = None
      | Quoted 96 => ty tok = T_InterpolatedShellBegin /\ exists h kd, n = Some (Lexer h kd None) /\ at_text h v
      | _ => ty tok = T_InterpolatedStringBegin /\ exists h kd, n = Some (Lexer h kd None) /\ at_text h v
      end).
    { destruct q as [|d].
      - do 2 eexists. split; [reflexivity|]. split; [reflexivity|]. do 2 eexists. split; [reflexivity|]. split; reflexivity.
      - destruct H2 as [[->|[->| ->]] _]; do 2 eexists; (split; [reflexivity|]).
        + auto.
        + split; [reflexivity|]. do 2 eexists. split; [reflexivity|]. split; reflexivity.
        + split; [reflexivity|]. do 2 eexists. split; [reflexivity|]. split; reflexivity. }
    destruct Y as (tok & n & -> & Y). do 3 eexists. split; [reflexivity|]. split; [destruct Hw; split; assumption|].
    split; [exists j; split; [reflexivity|exact J]|exact Y].
  - destruct q; cbn [first_ident]; [|exact I]. apply not_ident_char. auto.
  - unfold body_at. rewrite advance_n_heredocs. destruct (l_heredocs f); [|exact H4].
    destruct H4 as (tail & r & -> & Ht & ->). exists tail, r. rewrite advance_n_idx. auto.
Qed.
(** The closing line should be the first one that consists of blanks and the name.  For
    <<- and <<~ it is not: a line that merely ends in a blank and the name will do. *)
Theorem C20_closing_line_refuted :
  ~ (forall k name ls t z v, name_ok (Quoted "'"%ch) name -> Forall one_line ls ->
       Forall (fun l => ~ closing k name l) ls -> closing k name t -> z = [] \/ z = [ch_nl] ->
       small (unlines ls) -> heredoc_value k ls v ->
       exists ts, tokens 9 (raw_heredoc k name ls t z) = Ok ts /\ hd_error (shapes ts) = Some (T_String, Some v)).
Proof.
  intros H. destruct (H Dash (s2l "A") [s2l "foo A"] (s2l "A") [ch_nl] (unlines [s2l "foo A"])) as (ts & T1 & T2); auto.
  - cbn [name_ok]. split; [auto|]. repeat constructor; discriminate.
  - repeat constructor. cbv. intuition discriminate.
  - repeat constructor. intros (pad & P1 & P2). assert (L : length pad = 4%nat) by (apply (f_equal (@length _)) in P2; rewrite app_length in P2; cbn in P2; lia).
    destruct pad as [|c [|c' [|]]]; try discriminate L. inversion P1 as [|? ? Hc]; subst. discriminate P2.
  - exists []. split; [constructor|reflexivity].
  - unfold small. cbn. lia.
  - reflexivity.
  - vm_compute in T1. injection T1 as <-. vm_compute in T2. discriminate.
Qed.
(** A closing line indented with a tab leaves the tab in the text. *)
Theorem C20_tab_refuted :
  ~ (forall name ls pad, name_ok (Quoted "'"%ch) name -> Forall one_line ls -> Forall (fun l => ~ stops Dash name l) ls ->
       Forall (fun c => c = " "%ch \/ c = ch_tab) pad ->
       exists ts, tokens 9 (raw_heredoc Dash name ls (pad ++ name) [ch_nl]) = Ok ts /\
         hd_error (shapes ts) = Some (T_String, Some (unlines ls))).
Proof.
  intros H. destruct (H (s2l "A") [s2l "foo"] [ch_tab]) as (ts & T1 & T2).
  - cbn [name_ok]. split; [auto|]. repeat constructor; discriminate.
  - repeat constructor. cbv. intuition discriminate.
  - repeat constructor. intros [E|(p & c & _ & E)]; [discriminate|].
    assert (L : length p = 1%nat) by (apply (f_equal (@length _)) in E; rewrite app_length in E; cbn in E; lia).
    destruct p as [|? [|]]; try discriminate L. discriminate E.
  - constructor; [right; reflexivity|constructor].
  - vm_compute in T1. injection T1 as <-. vm_compute in T2. discriminate.
Qed.
Example C20_example :
  let ls := [s2l "    a"; []; s2l "      'b' #{c} END"; s2l "    ENDED"] in
  name_ok (Quoted "'"%ch) (s2l "THE END") /\ Forall one_line ls /\ Forall (fun l => ~ stops Squiggly (s2l "THE END") l) ls /\
  closing Squiggly (s2l "THE END") (s2l "  THE END") /\ small (unlines ls) /\
  heredoc_value Squiggly ls (unlines [s2l "a"; []; s2l "  'b' #{c} END"; s2l "ENDED"]) /\
  exists ts, tokens 3 (raw_heredoc Squiggly (s2l "THE END") ls (s2l "  THE END") [ch_nl]) = Ok ts /\
    shapes ts = [(T_String, Some (unlines [s2l "a"; []; s2l "  'b' #{c} END"; s2l "ENDED"])); (T_Newline, None); (T_Eof, None)].
Proof.
  cbv zeta. split; [|split; [|split; [|split; [|split; [|split]]]]].
  - cbn [name_ok]. split; [auto|]. repeat constructor; discriminate.
  - repeat constructor; cbv; intuition discriminate.
  - assert (D : forall l, length (s2l "THE END") = 7%nat -> skipn (length l - 7) l <> s2l "THE END" -> ~ stops Squiggly (s2l "THE END") l).
    { intros l L N [->|(p & c & _ & ->)]; apply N; [reflexivity|].
      replace (p ++ c :: s2l "THE END") with ((p ++ [c]) ++ s2l "THE END") by (rewrite <- app_assoc; reflexivity).
      rewrite app_length, L, Nat.add_sub, skipn_app, skipn_all, Nat.sub_diag. reflexivity. }
    repeat constructor; (apply D; [reflexivity|vm_compute; discriminate]).
  - exists (s2l "  "). split; [repeat constructor|reflexivity].
  - unfold small. cbn. lia.
  - exists 4%nat. split; [|reflexivity]. split.
    + exists (s2l "    a"). split; [left; reflexivity|]. exists (s2l "    "), "a"%ch, []. split; [reflexivity|].
      split; [reflexivity|]. split; [repeat constructor; right; reflexivity|]. unfold white. lia.
    + intros l m [<-|[<-|[<-|[<-|[]]]]] (p & c & r & E & <- & P & C).
      1, 3, 4: destruct p as [|p1 [|p2 [|p3 [|p4 p]]]]; cbn [length]; try lia; injection E as E; subst; exfalso; apply C; right; reflexivity.
      destruct p; discriminate E.
  - eexists. split; [vm_compute; reflexivity|reflexivity].
Qed.

(** ** C21: <<~ removes the smallest indentation *)

Theorem C21_dedent : forall ls n, Forall one_line ls -> small (unlines ls) -> smallest_indent n ls ->
  dedent_heredoc (unlines ls) = dedented n ls.
Proof. exact dedent_unlines. Qed.
(** Without a line that is not blank there is no smallest indentation, and nothing should
    change but the blanks: the text should keep its number of lines. *)
Theorem C21_blank_lines_refuted :
  ~ (forall ls, Forall one_line ls -> Forall blank ls -> small (unlines ls) ->
       exists ts v, tokens 9 (raw_heredoc Squiggly (s2l "A") ls (s2l "A") [ch_nl]) = Ok ts /\
         hd_error (shapes ts) = Some (T_String, Some v) /\ count_occ N.eq_dec v ch_nl = length ls).
Proof.
  intros H. destruct (H [[]; []]) as (ts & v & T1 & T2 & T3).
  - repeat constructor; intros [].
  - repeat constructor.
  - unfold small. cbn. lia.
  - vm_compute in T1. injection T1 as <-. vm_compute in T2. injection T2 as <-. vm_compute in T3. discriminate.
Qed.
Example C21_example :
  let ls := [s2l "   x"; s2l " "; s2l "  y  "] in
  Forall one_line ls /\ smallest_indent 2 ls /\ dedent_heredoc (unlines ls) = s2l " x" ++ [ch_nl; ch_nl] ++ s2l "y  " ++ [ch_nl].
Proof.
  cbv zeta. split; [|split].
  - repeat constructor; cbv; intuition discriminate.
  - split.
    + exists (s2l "  y  "). split; [right; right; left; reflexivity|]. exists (s2l "  "), "y"%ch, (s2l "  ").
      split; [reflexivity|]. split; [reflexivity|]. split; [repeat constructor; right; reflexivity|]. unfold white. lia.
    + intros l m [<-|[<-|[<-|[]]]] (p & c & r & E & <- & P & C).
      1, 3: destruct p as [|p1 [|p2 p]]; cbn [length]; try lia; injection E as E; subst; exfalso; apply C; right; reflexivity.
      destruct p as [|p1 [|]]; try discriminate E. injection E as <- <-. exfalso. apply C. right. reflexivity.
  - reflexivity.
Qed.

Print Assumptions C20_raw_heredoc.
Print Assumptions C20_in_context.
Print Assumptions C20_closing_line_refuted.
Print Assumptions C20_tab_refuted.
Print Assumptions C21_dedent.
Print Assumptions C21_blank_lines_refuted.

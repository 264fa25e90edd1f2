(** * LexNesting: begin and end tokens are properly nested *)
From Coq Require Import Strings.String NArith ZArith Bool Arith List Lia ZifyBool ZifyNat ZifyN.
From Verif Require Import Base Token Spec LexModel LexBasics LexSpec LexHeredoc LexSwitch LexNested LexInv LexTree TokensProofs.
Import ListNotations.
Open Scope N_scope.

(** Closers expected by a lexer of the given kind. *)
Definition kstk (k : kind) : list ttype :=
  match k with
  | KBase => []
  | KStr Done et _ => []
  | KStr EvaluateEnd et _ => [T_EvaluateToStringEnd; et]
  | KStr _ et _ => [et]
  | KRegexp Done _ => []
  | KRegexp EvaluateEnd _ => [T_EvaluateToStringEnd; T_InterpolatedRegexpEnd]
  | KRegexp _ _ => [T_InterpolatedRegexpEnd]
  | KWords st _ _ _ _ =>
    match st with
    | W_Done => []
    | W_InProgress | W_EndToken => [T_RBracket]
    | W_EvaluateEnd => [T_EvaluateToStringEnd; T_InterpolatedStringEnd; T_RBracket]
    | _ => [T_InterpolatedStringEnd; T_RBracket]
    end
  end.
Fixpoint stk (l : lexer) : list ttype :=
  let 'Lexer _ k n := l in match n with Some m => stk m | None => [] end ++ kstk k.

Definition kind_end_ok (k : kind) : Prop :=
  match k with KStr _ et _ => exists b, pair_ty b et | _ => True end.
Definition evaluating (k : kind) : bool :=
  match k with
  | KStr EvaluateEnd _ _ | KRegexp EvaluateEnd _ | KWords W_EvaluateEnd _ _ _ _ => true
  | _ => false
  end.
Definition is_base (k : kind) : bool := match k with KBase => true | _ => false end.
Fixpoint kinds_ok (l : lexer) : Prop :=
  let 'Lexer _ k n := l in
  kind_end_ok k /\
  match n with
  | None => evaluating k = false \/ True
  | Some m => kinds_ok m /\ (if is_base (kind_of m) then evaluating k = true else k = KBase)
  end.

Definition dyn_kind (k : kind) : bool := match k with KWords W_DynamicStringInProgress _ _ _ _ => true | _ => false end.
Fixpoint dyn (l : lexer) : bool :=
  match l with Lexer _ k None => dyn_kind k | Lexer _ _ (Some m) => dyn m end.

Lemma plain_closer t : plain_ty t = true -> closer t = None /\ is_closer t = false.
Proof. destruct t; try discriminate; auto. Qed.
Lemma ttype_eqb_refl t : ttype_eqb t t = true.
Proof. apply ttype_eqb_iff. reflexivity. Qed.

Lemma scan1_plain t st : plain_ty t = true -> (t <> T_RBracket \/ hd T_Eof st <> T_RBracket) -> scan1 t st = Some st.
Proof.
  intros Hp H. destruct (plain_closer t Hp) as [H1 H2]. unfold scan1. rewrite H1, H2.
  destruct t; try reflexivity. destruct st as [|c st]; [reflexivity|]. cbn in H.
  destruct c; try reflexivity. destruct H; congruence.
Qed.

(** One own step, with [r] expected further out. *)
Lemma own_scan (k : kind) (t : ttype) (k' : kind) (ck : option kind) (r : list ttype) :
  kind_end_ok k -> ktrans k t k' ck -> is_eof t = false -> is_valid t = true ->
  (k = KBase -> hd T_Eof r <> T_RBracket) ->
  scan1 t (kstk k ++ r) = Some (match ck with Some c => kstk c | None => [] end ++ kstk k' ++ r) \/
  dyn_kind k = true /\ t = T_InterpolatedStringBegin.
Proof.
  intros Hk Ht He Hv Hr. destruct k as [|st et al|st o|st it sc d b]; cbn [ktrans] in Ht.
  - destruct Ht as [-> Hb]. left. cbn [kstk app]. inversion Hb; subst; clear Hb.
    + apply scan1_plain; auto.
    + discriminate.
    + destruct H as [[-> ->]|[[-> ->]|[-> ->]]]; reflexivity.
    + reflexivity.
    + destruct it; destruct H as [-> | ->]; reflexivity.
  - destruct Ht as (f' & n' & Hs & ->). destruct Hk as [b Hb].
    assert (Hend : forall r, scan1 et (et :: r) = Some r).
    { intros q. unfold scan1. destruct Hb as [[_ ->]|[[_ ->]|[_ ->]]]; reflexivity. }
    left. inversion Hs; subst; cbn [option_map kstk app eval_lexer kind_of];
      repeat match goal with H : _ \/ _ |- _ => destruct H as [?|?] end; subst; try congruence; try reflexivity; apply Hend.
  - destruct Ht as (f' & n' & Hs & ->). left.
    inversion Hs; subst; cbn [option_map kstk app regexp_eval_lexer kind_of];
      repeat match goal with H : _ \/ _ |- _ => destruct H as [?|?] | H : _ /\ _ |- _ => destruct H end;
      subst; try discriminate; reflexivity.
  - destruct Ht as (f' & n' & Hs & ->).
    inversion Hs; subst; cbn [option_map kstk app eval_lexer kind_of];
      repeat match goal with H : _ \/ _ |- _ => destruct H as [?|?] end;
      subst; try discriminate; try (left; reflexivity); right; split; reflexivity.
Qed.

Lemma own_eof k t k' ck : kind_end_ok k -> ktrans k t k' ck -> is_eof t = true -> kstk k = [].
Proof.
  intros Hk Ht He. destruct k as [|st et al|st o|st it sc d b]; cbn [ktrans] in Ht; [reflexivity| | |].
  - destruct Ht as (f' & n' & Hs & _). destruct Hk as [b Hb].
    assert (He' : is_eof et = false) by (destruct Hb as [[_ ->]|[[_ ->]|[_ ->]]]; reflexivity).
    inversion Hs; subst; try discriminate; try congruence; try reflexivity.
    destruct t; discriminate.
  - destruct Ht as (f' & n' & Hs & _). inversion Hs; subst; try discriminate; reflexivity.
  - destruct Ht as (f' & n' & Hs & _). inversion Hs; subst; try discriminate; reflexivity.
Qed.

Lemma own_kinds k t k' ck : kind_end_ok k -> ktrans k t k' ck ->
  kind_end_ok k' /\
  match ck with Some c => kind_end_ok c /\ (if is_base c then evaluating k' = true else k' = KBase) | None => True end /\
  (dyn_kind match ck with Some c => c | None => k' end = true -> is_valid t = true -> t = T_EvaluateToStringEnd).
Proof.
  intros Hk Ht. destruct k as [|st et al|st o|st it sc d b]; cbn [ktrans] in Ht.
  - destruct Ht as [-> Hb]. split; [exact I|]. inversion Hb; subst; cbn; split; try (intros; discriminate); auto.
    split; [exists t; assumption|reflexivity].
  - destruct Ht as (f' & n' & Hs & ->). inversion Hs; subst; cbn [option_map]; (split; [exact Hk|]); cbn; split;
      try (intros; discriminate); auto.
  - destruct Ht as (f' & n' & Hs & ->). inversion Hs; subst; cbn [option_map]; (split; [exact Hk|]); cbn; split;
      try (intros; discriminate); auto.
  - destruct Ht as (f' & n' & Hs & ->). inversion Hs; subst; cbn [option_map]; (split; [exact Hk|]); cbn; split;
      try (intros; discriminate); auto; repeat match goal with H : _ \/ _ |- _ => destruct H as [?|?]; subst end;
      cbn; intros; try discriminate; auto.
Qed.

Lemma evaluating_stk k : evaluating k = true -> exists r, kstk k = T_EvaluateToStringEnd :: r.
Proof. destruct k as [|[]| []|[]]; try discriminate; cbn; eauto. Qed.

Record nest_ok (l : lexer) (t : token) (l' : lexer) (r : list ttype) : Prop := NestOk {
  ne_kinds : kinds_ok l';
  ne_base : is_base (kind_of l') = is_base (kind_of l);
  ne_eof : is_eof (ty t) = true -> stk l = [];
  ne_scan : is_eof (ty t) = false -> is_valid (ty t) = true ->
    scan1 (ty t) (stk l ++ r) = Some (stk l' ++ r) \/ dyn l = true /\ ty t = T_InterpolatedStringBegin;
  ne_dyn : is_eof (ty t) = false -> is_valid (ty t) = true -> dyn l' = true -> ty t = T_EvaluateToStringEnd;
}.

Lemma ktrans_base k t k' ck : ktrans k t k' ck -> is_base k' = is_base k.
Proof.
  destruct k; cbn [ktrans]; [intros [-> _]; reflexivity| | |]; intros (f' & n' & Hs & _); inversion Hs; reflexivity.
Qed.

(** [next_own] from a node whose children are gone. *)
Lemma own_nest s f k t f' k' n' r l :
  kind_of l = k -> kind_end_ok k -> own_ok s f k t f' k' n' -> stk l = kstk k ->
  (dyn_kind k = true -> dyn l = true) ->
  (k = KBase -> hd T_Eof r <> T_RBracket) ->
  nest_ok l t (Lexer f' k' n') r.
Proof.
  intros Hkl Hk Ho Hst Hd Hr. pose proof (ow_trans _ _ _ _ _ _ _ Ho) as Ht.
  destruct (own_kinds _ _ _ _ Hk Ht) as (K1 & K2 & K3).
  assert (Hfresh : forall m, n' = Some m -> child_of m = None) by (intros m Hm; apply (ow_child _ _ _ _ _ _ _ Ho m Hm)).
  assert (Hstk' : stk (Lexer f' k' n') = match option_map kind_of n' with Some c => kstk c | None => [] end ++ kstk k').
  { destruct n' as [[g c nn]|]; [|reflexivity]. specialize (Hfresh _ eq_refl). cbn in Hfresh. subst nn. reflexivity. }
  split.
  - cbn [kinds_ok]. split; [exact K1|]. destruct n' as [[g c nn]|]; [|auto].
    specialize (Hfresh _ eq_refl). cbn in Hfresh. subst nn. cbn in K2 |- *. tauto.
  - cbn [kind_of]. rewrite Hkl. eapply ktrans_base; eauto.
  - intros He. rewrite Hst. eapply own_eof; eauto.
  - intros He Hv. rewrite Hst, Hstk'. destruct (own_scan _ _ _ _ r Hk Ht He Hv Hr) as [H|[H1 H2]]; [|auto].
    left. rewrite H. f_equal. rewrite <- app_assoc. reflexivity.
  - intros He Hv Hdn. apply K3; [|exact Hv]. destruct n' as [[g c nn]|]; [|exact Hdn].
    specialize (Hfresh _ eq_refl). cbn in Hfresh. subst nn. exact Hdn.
Qed.

Lemma next_token_nest s l : ok s l -> kinds_ok l -> forall r,
  (is_base (kind_of l) = true -> hd T_Eof r <> T_RBracket) ->
  forall t l', next_token l = Ok (t, l') -> nest_ok l t l' r.
Proof.
  induction l as [f k m IH|f k] using chain_ind; intros Hok Hk r Hr t l' Hn; cbn [next_token] in Hn.
  - destruct Hok as (Hno & Hm & Hc). destruct Hk as (Hke & Hkm & Hkk). unfold bind in Hn.
    destruct (next_token m) as [[tm m']| |] eqn:Em; try discriminate.
    assert (Hrm : is_base (kind_of m) = true -> hd T_Eof (kstk k ++ r) <> T_RBracket).
    { intros E. rewrite E in Hkk. destruct (evaluating_stk _ Hkk) as [q ->]. cbn. discriminate. }
    destruct (IH Hm Hkm (kstk k ++ r) Hrm tm m' eq_refl) as [M1 M2 M3 M4 M5].
    pose proof (next_token_post s m Hm) as Hp. rewrite Em in Hp. cbn [post fst snd] in Hp.
    destruct (is_eof (ty tm)) eqn:Ee.
    + fold (resume f m') in Hn.
      assert (Hc' : child_ok f m') by (destruct Hp; eapply child_step; eauto).
      assert (Hrn : node_ok s (resume f m') k) by (apply resume_node; [exact Hno|apply Hp|exact Hc']).
      pose proof (next_own_post s _ k Hrn) as Ho. rewrite Hn in Ho. destruct l' as [f' k' n']. cbn [post own_post] in Ho.
      eapply own_nest; [reflexivity|exact Hke|exact Ho| | |].
      * cbn [stk]. rewrite (M3 eq_refl). reflexivity.
      * intros E. exfalso. destruct (is_base (kind_of m)); [|rewrite Hkk in E; discriminate].
        destruct k as [| |[] |[]]; discriminate.
      * intros E. cbn [kind_of] in E. subst k. apply Hr. reflexivity.
    + injection Hn as <- <-. split; cbn [kind_of stk dyn].
      * cbn [kinds_ok]. rewrite M2. auto.
      * reflexivity.
      * congruence.
      * intros _ Hv. rewrite <- !app_assoc. apply M4; auto.
      * intros _ Hv. apply M5; auto.
  - destruct Hok as (Hno & _). destruct Hk as (Hke & _).
    pose proof (next_own_post s _ k Hno) as Ho. rewrite Hn in Ho. destruct l' as [f' k' n']. cbn [post own_post] in Ho.
    eapply own_nest; [reflexivity|exact Hke|exact Ho|reflexivity|auto|].
    intros E. cbn [kind_of] in E. subst k. apply Hr. reflexivity.
Qed.

(** ** The loop of tokens() *)

Lemma scan_app a b st : scan (a ++ b) st = match scan a st with Some st' => scan b st' | None => None end.
Proof. revert st. induction a as [|t a IH]; intros st; cbn [scan app]; [reflexivity|]. destruct (scan1 t st); auto. Qed.

Lemma scan1_newline st : scan1 T_Newline st = Some st.
Proof. destruct st; reflexivity. Qed.
Lemma scan_pop acc st : scan (map ty (rev acc)) [] = Some st -> scan (map ty (rev (pop_newlines acc))) [] = Some st.
Proof.
  induction acc as [|t acc IH]; [auto|]. cbn [pop_newlines]. destruct (is_newline (ty t)) eqn:E; [|auto].
  cbn [rev]. rewrite map_app, scan_app. intros H. apply IH.
  destruct (scan (map ty (rev acc)) []) as [q|]; [|discriminate]. cbn [map scan] in H.
  apply is_newline_iff in E. rewrite E in H. rewrite scan1_newline in H. exact H.
Qed.

Lemma dyn_record l t : dyn (record_last l t) = dyn l.
Proof. destruct l as [f k [m|]]; reflexivity. Qed.
Lemma stk_record l t : stk (record_last l t) = stk l.
Proof. destruct l as [f k [m|]]; reflexivity. Qed.
Lemma kinds_record l t : kinds_ok l -> kinds_ok (record_last l t).
Proof. destruct l as [f k [m|]]; auto. Qed.
Lemma kind_record l t : kind_of (record_last l t) = kind_of l.
Proof. destruct l; reflexivity. Qed.

Lemma adjacent_app_l a b x y : adjacent a b x -> adjacent a b (x ++ y).
Proof. intros (l & r & ->). exists l, (r ++ y). rewrite <- app_assoc. reflexivity. Qed.

Definition result_nested (ts : list token) : Prop :=
  second_interpolation ts \/
  exists init t st, ts = init ++ [t] /\ scan (map ty init) [] = Some st /\ (ty t = T_Eof -> st = []).

Lemma pop_newlines_keep nls x acc0 : Forall (fun z => is_newline (ty z) = true) nls -> is_newline (ty x) = false ->
  pop_newlines (nls ++ x :: acc0) = x :: acc0.
Proof. intros H Hx. induction H as [|z nls Hz _ IH]; cbn [app pop_newlines]; [rewrite Hx; reflexivity|rewrite Hz; exact IH]. Qed.

(** What was pushed before a token that is not a newline stays. *)
Lemma tokens_loop_prefix fuel : forall l nls x acc0 skip pending r,
  Forall (fun z => is_newline (ty z) = true) nls -> is_newline (ty x) = false ->
  tokens_loop fuel l (nls ++ x :: acc0) skip pending = Ok r -> exists y, r = rev (x :: acc0) ++ y.
Proof.
  induction fuel as [|fuel IH]; intros l nls x acc0 skip pending r Hn Hx H; [discriminate|].
  cbn [tokens_loop] in H. unfold bind in H.
  destruct (next_token l) as [[t l']| |]; try discriminate.
  destruct (is_comment (ty t)); [eapply IH; eauto|].
  destruct (is_doc (ty t)); [eapply IH; eauto|].
  destruct (skip && is_newline (ty t)); [eapply IH; eauto|].
  assert (Hpop : exists nls', Forall (fun z => is_newline (ty z) = true) nls' /\
    (if can_follow_collapsible_newline (ty t) then pop_newlines (nls ++ x :: acc0) else nls ++ x :: acc0) = nls' ++ x :: acc0).
  { destruct (can_follow_collapsible_newline (ty t)); [exists []; split; [constructor|apply pop_newlines_keep; auto]|eauto]. }
  destruct Hpop as (nls' & Hn' & Hpop). rewrite Hpop in H.
  assert (Hgo : forall u pend,
    (if is_eof (ty u) then Ok (rev (u :: nls' ++ x :: acc0))
     else if negb (is_valid (ty u)) then Ok (rev (u :: nls' ++ x :: acc0))
     else tokens_loop fuel (record_last l' u) (u :: nls' ++ x :: acc0) (can_precede_collapsible_newline (ty u)) pend) = Ok r ->
    exists y, r = rev (x :: acc0) ++ y).
  { intros u pend Hr.
    assert (Hrv : forall r', Ok (rev (u :: nls' ++ x :: acc0)) = Ok r' -> exists y, r' = rev (x :: acc0) ++ y).
    { intros r' E. exists (rev nls' ++ [u]). injection E as <-. cbn [rev]. rewrite rev_app_distr, <- app_assoc.
      reflexivity. }
    destruct (is_eof (ty u)); [auto|]. destruct (negb (is_valid (ty u))); [auto|].
    destruct (is_newline (ty u)) eqn:En.
    - apply (IH _ (u :: nls') x acc0 _ _ _ (Forall_cons _ En Hn') Hx Hr).
    - destruct (IH _ [] u (nls' ++ x :: acc0) _ _ _ (Forall_nil _) En Hr) as [y ->].
      exists (rev nls' ++ u :: y). cbn [rev]. rewrite rev_app_distr. cbn [rev]. rewrite <- !app_assoc. reflexivity. }
  destruct pending as [d|]; [|eapply Hgo; exact H].
  destruct (can_have_doc (ty t)); [eapply Hgo; exact H|].
  destruct (negb (is_end_of_line (ty t))); eapply Hgo; exact H.
Qed.

Lemma tokens_loop_nested s fuel : forall l acc skip pending r,
  ok s l -> kinds_ok l -> is_base (kind_of l) = true ->
  scan (map ty (rev acc)) [] = Some (stk l) ->
  (dyn l = true -> exists x acc0, acc = x :: acc0 /\ ty x = T_EvaluateToStringEnd) ->
  tokens_loop fuel l acc skip pending = Ok r -> result_nested r.
Proof.
  induction fuel as [|fuel IH]; intros l acc skip pending r Hok Hk Hb Hs Hd H; [discriminate|].
  cbn [tokens_loop] in H. unfold bind in H.
  destruct (next_token l) as [[t l']| |] eqn:En; try discriminate.
  destruct (next_token_nest s l Hok Hk [] (fun _ => ltac:(discriminate)) t l' En) as [N1 N2 N3 N4 N5].
  pose proof (next_token_post s l Hok) as Hp. rewrite En in Hp. cbn [post fst snd] in Hp.
  assert (Hok' : ok s l') by apply Hp.
  rewrite Hb in N2. rewrite !app_nil_r in N4.
  assert (Hskip : plain_ty (ty t) = true -> is_eof (ty t) = false -> is_valid (ty t) = true -> ty t <> T_RBracket ->
    stk l' = stk l /\ dyn l' = false).
  { intros P1 P2 P3 P4. split.
    - destruct (N4 P2 P3) as [E|[_ E]]; [|rewrite E in P1; discriminate].
      rewrite scan1_plain in E; auto. congruence.
    - destruct (dyn l'); [|reflexivity]. rewrite (N5 P2 P3 eq_refl) in P1. discriminate. }
  assert (Hcont : forall p2, stk l' = stk l /\ dyn l' = false -> tokens_loop fuel l' acc skip p2 = Ok r -> result_nested r).
  { intros p2 [S1 S2] Hr. eapply IH; [exact Hok'|exact N1|exact N2| | |exact Hr]; [rewrite S1; exact Hs|rewrite S2; discriminate]. }
  destruct (is_comment (ty t)) eqn:Ec.
  { eapply Hcont; [|exact H]. apply Hskip; destruct (ty t); try discriminate; auto. }
  destruct (is_doc (ty t)) eqn:Edc.
  { eapply Hcont; [|exact H]. apply Hskip; destruct (ty t); try discriminate; auto. }
  destruct (skip && is_newline (ty t)) eqn:Esk.
  { apply andb_prop in Esk. destruct Esk as [_ Enl].
    eapply Hcont; [|exact H]. apply Hskip; destruct (ty t); try discriminate; auto. }
  clear Hcont Hskip.
  set (acc' := if can_follow_collapsible_newline (ty t) then pop_newlines acc else acc) in H.
  assert (Hs' : scan (map ty (rev acc')) [] = Some (stk l))
    by (unfold acc'; destruct (can_follow_collapsible_newline (ty t)); [apply scan_pop|]; exact Hs).
  assert (Hd' : dyn l = true -> exists x acc0, acc' = x :: acc0 /\ ty x = T_EvaluateToStringEnd).
  { intros E. destruct (Hd E) as (x & acc0 & -> & Hx). exists x, acc0. split; [|exact Hx]. unfold acc'.
    destruct (can_follow_collapsible_newline (ty t)); [|reflexivity]. cbn [pop_newlines]. rewrite Hx. reflexivity. }
  clearbody acc'.
  assert (Hgo : forall u pend, ty u = ty t ->
    (if is_eof (ty u) then Ok (rev (u :: acc'))
     else if negb (is_valid (ty u)) then Ok (rev (u :: acc'))
     else tokens_loop fuel (record_last l' u) (u :: acc') (can_precede_collapsible_newline (ty u)) pend) = Ok r ->
    result_nested r).
  { intros u pend Hu Hr. rewrite Hu in Hr.
    destruct (is_eof (ty t)) eqn:Ee.
    { injection Hr as <-. right. exists (rev acc'), u, (stk l). auto. }
    destruct (is_valid (ty t)) eqn:Ev; cbn [negb] in Hr.
    2:{ injection Hr as <-. right. exists (rev acc'), u, (stk l). split; [reflexivity|]. split; [exact Hs'|].
        rewrite Hu. intros E. rewrite E in Ee. discriminate. }
    destruct (N4 eq_refl eq_refl) as [Es|[Ed Es]].
    - eapply (IH (record_last l' u) (u :: acc')); [| | | | |exact Hr].
      + apply ok_record; exact Hok'.
      + apply kinds_record; exact N1.
      + rewrite kind_record; exact N2.
      + cbn [rev]. rewrite map_app, scan_app, Hs'. cbn [map scan]. rewrite Hu, Es, stk_record. reflexivity.
      + rewrite dyn_record. intros E. exists u, acc'. split; [reflexivity|]. rewrite Hu. auto.
    - left. destruct (Hd' Ed) as (x & acc0 & -> & Hx).
      assert (Eu : is_newline (ty u) = false) by (rewrite Hu, Es; reflexivity).
      destruct (tokens_loop_prefix fuel _ [] u (x :: acc0) _ _ _ (Forall_nil _) Eu Hr) as [y ->].
      exists x, u. split; [|split; [exact Hx|congruence]].
      exists (rev acc0), y. cbn [rev]. rewrite <- !app_assoc. reflexivity. }
  destruct pending as [d|]; [|eapply (Hgo t); [reflexivity|exact H]].
  destruct (can_have_doc (ty t)); [eapply (Hgo (set_doc t d)); [reflexivity|exact H]|].
  destruct (negb (is_end_of_line (ty t))); (eapply (Hgo t); [reflexivity|exact H]).
Qed.

Lemma tokens_nested s fuel r : bytes s -> small s -> tokens fuel s = Ok r -> result_nested r.
Proof.
  intros Hb Hs H. eapply (tokens_loop_nested s fuel _ []); [apply ok_start; auto|split; [exact I|auto]|reflexivity|reflexivity|discriminate|exact H].
Qed.

Lemma tokens_balanced s fuel init t : bytes s -> small s -> tokens fuel s = Ok (init ++ [t]) ->
  ~ second_interpolation (init ++ [t]) ->
  scan (map ty init) [] <> None /\ (ty t = T_Eof -> balanced (init ++ [t])).
Proof.
  intros Hb Hs H Hn. destruct (tokens_nested s fuel _ Hb Hs H) as [?|(i & u & st & E & Hi & He)]; [contradiction|].
  apply app_inj_tail in E. destruct E as [<- <-]. split; [congruence|].
  intros Et. unfold balanced. rewrite map_app, scan_app, Hi, (He Et). cbn [map scan]. rewrite Et. reflexivity.
Qed.

Fixpoint second_interp_b (ts : list token) : bool :=
  match ts with
  | a :: ((b :: _) as ts') =>
    ttype_eqb (ty a) T_EvaluateToStringEnd && ttype_eqb (ty b) T_InterpolatedStringBegin || second_interp_b ts'
  | _ => false
  end.
Lemma second_interp_b_sound ts : second_interp_b ts = false -> ~ second_interpolation ts.
Proof.
  intros H (a & b & (l & r & ->) & Ha & Hb). revert H. induction l as [|x l IH].
  - cbn [app second_interp_b]. rewrite Ha, Hb. discriminate.
  - cbn [app]. destruct (l ++ a :: b :: r) as [|y q] eqn:E; [destruct l; discriminate|].
    cbn [second_interp_b]. intros H. apply orb_false_iff in H. apply IH, H.
Qed.

(** * LexHereFwd: running the lexer over heredocs *)
From Coq Require Import Strings.String NArith ZArith Bool Arith List Lia ZifyBool ZifyNat ZifyN.
From Verif Require Import Base Token Spec SpecLit SpecHeredoc LexModel LexBasics LexRest LexHeredoc LexInv LexFwd LexIdent LexWords.
Import ListNotations.
Open Scope N_scope.

Lemma unlines_cons l ls : unlines (l :: ls) = l ++ ch_nl :: unlines ls.
Proof. unfold unlines. cbn [map concat]. rewrite <- app_assoc. reflexivity. Qed.
Lemma white_isspace c : white c <-> isspace c = true.
Proof. rewrite isspace_iff. reflexivity. Qed.

(** ** Dedenting *)

Lemma indent_skip l : one_line l -> forall r hi li, indent_loop (l ++ r) hi li false = indent_loop r hi li false.
Proof.
  induction l as [|c l IH]; intros Hl r hi li; [reflexivity|]. cbn [app indent_loop].
  assert (Hc : c =? ch_nl = false) by (apply N.eqb_neq; intros ->; apply Hl; left; reflexivity).
  assert (Hl' : one_line l) by (intros H; apply Hl; right; exact H).
  rewrite Hc. destruct (isspace c); apply IH; exact Hl'.
Qed.
Lemma indent_white p : Forall white p -> ~ In ch_nl p -> forall r hi li,
  indent_loop (p ++ r) hi li true = indent_loop r hi (li + N.of_nat (length p)) true.
Proof.
  induction 1 as [|c p Hc Hp IH]; intros Hn r hi li; [cbn [app length]; f_equal; lia|]. cbn [app indent_loop].
  assert (En : c =? ch_nl = false) by (apply N.eqb_neq; intros ->; apply Hn; left; reflexivity).
  apply white_isspace in Hc. rewrite En, Hc, IH by (intros H; apply Hn; right; exact H). f_equal. cbn [length]. lia.
Qed.
Lemma indent_blank l r hi : one_line l -> blank l ->
  indent_loop (l ++ ch_nl :: r) hi 0 true = indent_loop r hi 0 true.
Proof. intros Hl Hb. rewrite indent_white by assumption. reflexivity. Qed.
Lemma indent_line l n r hi : one_line l -> indented n l ->
  indent_loop (l ++ ch_nl :: r) hi 0 true = indent_loop r (N.min hi (N.of_nat n)) 0 true.
Proof.
  intros Hl (p & c & q & -> & <- & Hp & Hc). rewrite <- app_assoc. unfold one_line in Hl. rewrite in_app_iff in Hl.
  rewrite indent_white by intuition auto. cbn [app indent_loop].
  assert (En : c =? ch_nl = false) by (apply N.eqb_neq; intros ->; apply Hl; right; left; reflexivity).
  assert (Es : isspace c = false) by (destruct (isspace c) eqn:E; [exfalso; apply Hc, white_isspace, E|reflexivity]).
  rewrite En, Es, indent_skip; [|intros H; apply Hl; right; right; exact H].
  cbn [indent_loop]. rewrite N.eqb_refl. cbn [negb andb]. f_equal.
  rewrite N.add_0_l. destruct (N.ltb_spec (N.of_nat (length p)) hi); lia.
Qed.

Lemma blank_or_indented l : blank l \/ exists n, indented n l.
Proof.
  induction l as [|c l IH]; [left; constructor|].
  destruct (isspace c) eqn:E.
  - apply white_isspace in E. destruct IH as [IH|(n & p & d & r & -> & <- & Hp & Hd)].
    + left. constructor; assumption.
    + right. exists (S (length p)), (c :: p), d, r. repeat split; auto.
  - right. exists 0%nat, [], c, l. repeat split; auto. intros H. apply white_isspace in H. congruence.
Qed.
Lemma indented_not_blank n l : indented n l -> ~ blank l.
Proof.
  intros (p & c & r & -> & _ & _ & Hc) Hb. apply Hc. eapply Forall_forall; [exact Hb|].
  apply in_or_app. right. left. reflexivity.
Qed.
Lemma white_prefix p : forall q c d r r', Forall white p -> Forall white q -> ~ white c -> ~ white d ->
  p ++ c :: r = q ++ d :: r' -> length p = length q.
Proof.
  induction p as [|x p IH]; intros [|y q] c d r r' Hp Hq Hc Hd H; cbn [app] in H; injection H as H1 H2; subst.
  - reflexivity.
  - exfalso. apply Hc. inversion Hq; assumption.
  - exfalso. apply Hd. inversion Hp; assumption.
  - cbn [length]. f_equal. apply (IH q c d r r'); auto; [inversion Hp|inversion Hq]; assumption.
Qed.
Lemma indented_unique n m l : indented n l -> indented m l -> n = m.
Proof.
  intros (p & c & r & -> & <- & Hp & Hc) (q & d & r' & E & <- & Hq & Hd). exact (white_prefix _ _ _ _ _ _ Hp Hq Hc Hd E).
Qed.

Lemma indent_lines ls : Forall one_line ls -> forall hi,
  indent_loop (unlines ls) hi 0 true <= hi /\
  (forall l n, In l ls -> indented n l -> indent_loop (unlines ls) hi 0 true <= N.of_nat n) /\
  (indent_loop (unlines ls) hi 0 true = hi \/
   exists l n, In l ls /\ indented n l /\ indent_loop (unlines ls) hi 0 true = N.of_nat n).
Proof.
  induction 1 as [|l ls Hl Hls IH]; intros hi.
  { cbn. split; [lia|]. split; [intros ? ? []|left; reflexivity]. }
  rewrite unlines_cons. destruct (blank_or_indented l) as [Hb|[n Hn]].
  - rewrite indent_blank by assumption. destruct (IH hi) as (H1 & H2 & H3). split; [exact H1|]. split.
    + intros l' m [<-|Hi] Hm; [exfalso; eapply indented_not_blank; eauto|eauto].
    + destruct H3 as [H3|(l' & m & Hi & Hm & H3)]; [left; exact H3|right; exists l', m; split; [right; exact Hi|auto]].
  - rewrite (indent_line _ n) by assumption. destruct (IH (N.min hi (N.of_nat n))) as (H1 & H2 & H3).
    split; [lia|]. split.
    + intros l' m [<-|Hi] Hm; [rewrite <- (indented_unique _ _ _ Hn Hm); lia|eauto].
    + destruct H3 as [H3|(l' & m & Hi & Hm & H3)].
      * destruct (N.le_gt_cases hi (N.of_nat n)); [left; lia|].
        right. exists l, n. split; [left; reflexivity|]. split; [exact Hn|lia].
      * right. exists l', m. split; [right; exact Hi|auto].
Qed.

Lemma heredoc_indent_lines ls n : Forall one_line ls -> small (unlines ls) -> smallest_indent n ls ->
  get_heredoc_indent (unlines ls) = N.of_nat n.
Proof.
  intros Hl Hs [(l & Hi & Hn) Hmin]. unfold get_heredoc_indent.
  assert (Hle : N.of_nat n < size_max).
  { assert (E : (n <= length (unlines ls))%nat).
    { destruct Hn as (p & c & r & -> & <- & _). clear - Hi. induction ls as [|a ls IH]; [destruct Hi|].
      rewrite unlines_cons, app_length. destruct Hi as [->|Hi]; [rewrite app_length; lia|].
      specialize (IH Hi). cbn [length]. lia. }
    unfold small in Hs. change (2 ^ 63) with 9223372036854775808 in Hs. unfold size_max. lia. }
  destruct (unlines ls) eqn:E.
  { exfalso. destruct ls as [|a ls]; [destruct Hi|]. rewrite unlines_cons in E. destruct a; discriminate. }
  rewrite <- E. clear E. destruct (indent_lines ls Hl size_max) as (H1 & H2 & [H3|(l' & m & Hi' & Hm & H3)]).
  - specialize (H2 _ _ Hi Hn). lia.
  - specialize (H2 _ _ Hi Hn). specialize (Hmin _ _ Hi' Hm). lia.
Qed.

Lemma dedent_skip doc l : one_line l -> forall r i ind lb nd,
  dedent_loop doc (l ++ r) i ind lb nd = dedent_loop doc r (i + N.of_nat (length l)) ind lb nd.
Proof.
  induction l as [|c l IH]; intros Hl r i ind lb nd; [cbn [app length]; f_equal; lia|]. cbn [app dedent_loop].
  assert (Hc : c =? ch_nl = false) by (apply N.eqb_neq; intros ->; apply Hl; left; reflexivity).
  rewrite Hc, IH by (intros H; apply Hl; right; exact H). f_equal. cbn [length]. lia.
Qed.
Lemma dedent_lines_loop ls : Forall one_line ls -> forall doc pre n nd,
  doc = pre ++ unlines ls -> small doc -> (n <= length doc)%nat ->
  dedent_loop doc (unlines ls) (N.of_nat (length pre)) (N.of_nat n) (N.of_nat (length pre)) nd
  = nd ++ unlines (map (skipn n) ls).
Proof.
  induction 1 as [|l ls Hl Hls IH]; intros doc pre n nd Hd Hs Hn; [cbn; rewrite app_nil_r; reflexivity|].
  rewrite unlines_cons in *. rewrite dedent_skip by exact Hl. cbn [dedent_loop]. rewrite N.eqb_refl.
  assert (Hw : wrap (N.of_nat (length pre) + N.of_nat n) = N.of_nat (length pre + n)).
  { unfold wrap. rewrite N.mod_small; [lia|]. subst doc. unfold small in Hs. rewrite app_length in *.
    change (2 ^ 63) with 9223372036854775808 in Hs. lia. }
  rewrite Hw. cbn [map]. rewrite unlines_cons.
  replace (N.of_nat (length pre) + N.of_nat (length l) + 1) with (N.of_nat (length (pre ++ l ++ [ch_nl])))
    by (rewrite !app_length; cbn [length]; lia).
  rewrite (IH doc (pre ++ l ++ [ch_nl]) n); [|rewrite Hd, <- !app_assoc; reflexivity|exact Hs|exact Hn].
  destruct (N.ltb_spec (N.of_nat (length pre + n)) (N.of_nat (length pre) + N.of_nat (length l))) as [Hlt|Hge].
  - replace (substring doc _ _) with (skipn n l); [rewrite <- !app_assoc; reflexivity|].
    unfold substring. rewrite Hd.
    replace (N.to_nat (N.of_nat (length pre + n))) with (length pre + n)%nat by lia.
    replace (N.to_nat _) with (length (skipn n l)) by (rewrite skipn_length; lia).
    replace (skipn (length pre + n) (pre ++ l ++ ch_nl :: unlines ls)) with (skipn n l ++ ch_nl :: unlines ls).
    + rewrite firstn_app, Nat.sub_diag, firstn_all, firstn_O, app_nil_r. reflexivity.
    + rewrite skipn_app. rewrite (skipn_all2 pre) by lia. replace (length pre + n - length pre)%nat with n by lia.
      cbn [app]. rewrite skipn_app. replace (n - length l)%nat with 0%nat by lia. reflexivity.
  - rewrite (skipn_all2 l) by lia. rewrite <- app_assoc. reflexivity.
Qed.
Lemma unlines_skip0 ls : unlines (map (skipn 0) ls) = unlines ls.
Proof. f_equal. rewrite <- (map_id ls) at 2. apply map_ext. reflexivity. Qed.

Lemma dedent_unlines ls n : Forall one_line ls -> small (unlines ls) -> smallest_indent n ls ->
  dedent_heredoc (unlines ls) = dedented n ls.
Proof.
  intros Hl Hs Hn. unfold dedent_heredoc, dedented. rewrite (heredoc_indent_lines ls n) by assumption.
  destruct (N.eqb_spec (N.of_nat n) 0) as [E|E].
  - replace n with 0%nat by lia. symmetry. apply unlines_skip0.
  - apply (dedent_lines_loop ls Hl (unlines ls) [] n []); [reflexivity|exact Hs|].
    destruct Hn as [(l & Hi & p & c & r & -> & <- & _) _]. clear - Hi. induction ls as [|a ls IH]; [destruct Hi|].
    rewrite unlines_cons, app_length. destruct Hi as [->|Hi]; [rewrite app_length; lia|].
    specialize (IH Hi). cbn [length]. lia.
Qed.

(** ** The closing line *)

Lemma ends_with_app p s : ends_with (p ++ s) s = true.
Proof.
  unfold ends_with. rewrite app_length. replace (length p + length s - length s)%nat with (length p) by lia.
  rewrite skipn_app, skipn_all, Nat.sub_diag. cbn [app]. change (skipn 0 s) with s. rewrite str_eqb_refl, andb_true_r. lia.
Qed.
Lemma ends_with_inv s x : ends_with s x = true -> exists p, s = p ++ x.
Proof.
  unfold ends_with. intros H. apply andb_true_iff in H as [_ H]. apply str_eqb_eq in H.
  exists (firstn (length s - length x) s). rewrite H at 2. symmetry. apply firstn_skipn.
Qed.
Lemma last_split (p : str) : p = [] \/ exists q c, p = q ++ [c].
Proof. destruct p as [|x p]; [left; reflexivity|right]. destruct (@exists_last _ (x :: p)) as (q & c & E); [discriminate|eauto]. Qed.

Lemma valid_app dash p c name :
  is_valid_heredoc dash (p ++ c :: name) name = if dash then isspace c else c =? ch_nl.
Proof.
  unfold is_valid_heredoc. replace (p ++ c :: name) with ((p ++ [c]) ++ name) by (rewrite <- app_assoc; reflexivity).
  rewrite ends_with_app. cbn [negb]. rewrite !app_length. cbn [length].
  destruct (_ =? 0)%nat eqn:E; [lia|].
  replace (length p + 1 + length name - length name - 1)%nat with (length p) by lia.
  unfold at_. rewrite <- app_assoc, app_nth2, Nat.sub_diag by lia. reflexivity.
Qed.
Lemma valid_self dash name : is_valid_heredoc dash name name = true.
Proof.
  unfold is_valid_heredoc. pose proof (ends_with_app [] name) as E. cbn [app] in E. rewrite E, Nat.sub_diag. reflexivity.
Qed.

(** Text read so far: whole lines. *)
Definition whole (d : str) : Prop := d = [] \/ exists d', d = d' ++ [ch_nl].
Definition dashed (k : heredoc_kind) : bool := match k with Plain => false | _ => true end.

Lemma suffix_of_line d l p name : whole d -> one_line name -> d ++ l = p ++ name ->
  exists q, l = q ++ name /\ p = d ++ q.
Proof.
  intros Hd Hn E. destruct (Nat.le_gt_cases (length d) (length p)) as [H|H].
  - pose proof (f_equal (firstn (length d)) E) as E1. pose proof (f_equal (skipn (length d)) E) as E2.
    rewrite firstn_app, Nat.sub_diag, firstn_all, firstn_O, app_nil_r in E1.
    rewrite firstn_app in E1. replace (length d - length p)%nat with 0%nat in E1 by lia.
    rewrite firstn_O, app_nil_r in E1.
    rewrite skipn_app, skipn_all, Nat.sub_diag in E2. cbn [app] in E2. change (skipn 0 l) with l in E2.
    rewrite skipn_app in E2. replace (length d - length p)%nat with 0%nat in E2 by lia.
    change (skipn 0 name) with name in E2. exists (skipn (length d) p). split; [exact E2|].
    rewrite E1 at 1. symmetry. apply firstn_skipn.
  - exfalso. destruct Hd as [->|(d' & ->)]; [cbn [length] in H; lia|]. apply Hn.
    rewrite app_length in H. cbn [length] in H.
    pose proof (f_equal (fun s => nth (length d') s 0) E) as E1. cbn beta in E1.
    rewrite <- app_assoc, (app_nth2 d'), Nat.sub_diag in E1 by lia. cbn [app nth] in E1.
    rewrite app_nth2 in E1 by lia. rewrite E1. apply nth_In.
    pose proof (f_equal (@length _) E) as E2. rewrite !app_length in E2. cbn [length] in E2. lia.
Qed.

Lemma valid_line k d l name : whole d -> one_line l -> one_line name ->
  is_valid_heredoc (dashed k) (d ++ l) name = true <-> stops k name l.
Proof.
  intros Hd Hl Hn. split.
  - intros H. assert (E : ends_with (d ++ l) name = true)
      by (unfold is_valid_heredoc in H; destruct (ends_with _ _); [reflexivity|discriminate]).
    apply ends_with_inv in E as [p E]. destruct (suffix_of_line _ _ _ _ Hd Hn E) as (q & El & Ep).
    destruct (last_split q) as [->|(q' & c & ->)]; [left; exact El|]. right.
    rewrite E, Ep in H.
    replace ((d ++ q' ++ [c]) ++ name) with ((d ++ q') ++ c :: name) in H by (rewrite <- !app_assoc; reflexivity).
    rewrite valid_app in H.
    assert (Hc : c <> ch_nl).
    { intros ->. apply Hl. rewrite El. apply in_or_app. left. apply in_or_app. right. left. reflexivity. }
    assert (Hx : l = q' ++ c :: name) by (rewrite El, <- app_assoc; reflexivity).
    destruct k; cbn [dashed] in H.
    + apply N.eqb_eq in H. contradiction.
    + exists q', c. split; [apply white_isspace; exact H|exact Hx].
    + exists q', c. split; [apply white_isspace; exact H|exact Hx].
  - assert (Hself : is_valid_heredoc (dashed k) (d ++ name) name = true).
    { destruct Hd as [->|(d' & ->)]; [apply valid_self|]. rewrite <- app_assoc. cbn [app].
      rewrite valid_app. destruct k; reflexivity. }
    intros [->|H]; [exact Hself|]. destruct k; [contradiction| |]; destruct H as (p & c & Hc & ->); cbn [dashed];
      rewrite app_assoc, valid_app; apply white_isspace; exact Hc.
Qed.

Lemma closing_stops k name l : closing k name l -> stops k name l.
Proof.
  destruct k; cbn [closing]; [left; assumption| |]; intros (pad & Hp & ->); unfold stops;
    (destruct (last_split pad) as [->|(q & c & ->)]; [left; reflexivity|right]);
    exists q, c; (split; [|rewrite <- app_assoc; reflexivity]);
    apply Forall_app in Hp as [_ Hp]; inversion Hp; subst; right; reflexivity.
Qed.

(** ** The loop over the body *)

Lemma heredoc_char_at f i c r : wf f -> skipn i (l_input f) = c :: r ->
  heredoc_char f i = c /\ (l_size f <=? i)%nat = false.
Proof.
  intros Hw H. unfold heredoc_char. unfold wf in Hw.
  assert (Hi : (i < length (l_input f))%nat).
  { destruct (Nat.lt_ge_cases i (length (l_input f))); [assumption|]. rewrite skipn_all2 in H by lia. discriminate. }
  assert (E : (l_size f <=? i)%nat = false) by (apply Nat.leb_gt; lia).
  rewrite E. split; [|reflexivity]. unfold at_.
  rewrite <- (firstn_skipn i (l_input f)), H, app_nth2; rewrite firstn_length_le by lia; [|lia].
  rewrite Nat.sub_diag. reflexivity.
Qed.
Lemma skipn_cons i (s : str) c r : skipn i s = c :: r -> skipn (S i) s = r.
Proof. intros H. replace (S i) with (i + 1)%nat by lia. rewrite <- skipn_add, H. reflexivity. Qed.
Lemma skipn_app_n i (s w r : str) : skipn i s = w ++ r -> skipn (i + length w) s = r.
Proof. intros H. rewrite <- skipn_add, H, skipn_app, skipn_all, Nat.sub_diag. reflexivity. Qed.

Lemma body_line f dash name l : one_line l -> forall fuel i d r,
  wf f -> skipn i (l_input f) = l ++ r -> (length l < fuel)%nat ->
  heredoc_body_loop fuel f dash name i d =
  heredoc_body_loop (fuel - length l) f dash name (i + length l) (d ++ l).
Proof.
  induction l as [|c l IH]; intros Hl fuel i d r Hw Hr Hf.
  { cbn [length]. rewrite app_nil_r, Nat.sub_0_r, Nat.add_0_r. reflexivity. }
  destruct fuel as [|fuel]; [lia|]. cbn [length] in *. cbn [app] in Hr.
  destruct (heredoc_char_at f i c _ Hw Hr) as [Hc Hs]. cbn [heredoc_body_loop]. rewrite Hs, Hc.
  assert (En : c =? ch_nl = false) by (apply N.eqb_neq; intros ->; apply Hl; left; reflexivity).
  rewrite En. cbn [andb]. rewrite (IH (fun H => Hl (or_intror H)) fuel (S i) (d ++ [c]) r Hw (skipn_cons _ _ _ _ Hr)) by lia.
  rewrite <- app_assoc. cbn [app]. do 1 f_equal; lia.
Qed.

Lemma body_lines f k name ls : one_line name -> Forall one_line ls -> Forall (fun l => ~ stops k name l) ls ->
  forall fuel i d t z, wf f -> whole d -> skipn i (l_input f) = unlines ls ++ t ++ z ->
  one_line t -> stops k name t -> (z = [] \/ exists m, z = ch_nl :: m) ->
  (S (length (unlines ls ++ t)) < fuel)%nat ->
  heredoc_body_loop fuel f (dashed k) name i d =
  Ok (inr (d ++ unlines ls ++ t, i + length (unlines ls ++ t) + length (firstn 1 z))%nat).
Proof.
  intros Hn. induction 1 as [|l ls Hl Hls IH]; intros Hst fuel i d t z Hw Hd Hr Ht Hstop Hz Hf.
  - cbn [unlines map concat app] in *. rewrite (body_line _ _ _ t Ht fuel i d z) by (auto; lia).
    destruct (fuel - length t)%nat as [|fuel'] eqn:Ef; [lia|]. cbn [heredoc_body_loop].
    apply skipn_app_n in Hr. pose proof (proj2 (valid_line k d t name Hd Ht Hn) Hstop) as Hv.
    destruct Hz as [->|[m ->]].
    + assert (Es : (l_size f <=? i + length t)%nat = true).
      { apply Nat.leb_le. unfold wf in Hw. pose proof (f_equal (@length _) Hr) as E. rewrite skipn_length in E. cbn in E. lia. }
      rewrite Es, Hv. cbn [firstn length]. do 3 f_equal. lia.
    + destruct (heredoc_char_at f _ _ _ Hw Hr) as [Hc Hs]. rewrite Hs, Hc, N.eqb_refl, Hv.
      cbn [andb firstn length]. do 3 f_equal. lia.
  - rewrite unlines_cons in *. inversion Hst as [|? ? Hst1 Hst2]; subst.
    rewrite <- app_assoc in Hr. rewrite <- app_assoc in Hf. rewrite app_length in Hf. cbn [app length] in Hf.
    rewrite (body_line _ _ _ l Hl fuel i d _ Hw Hr) by lia.
    destruct (fuel - length l)%nat as [|fuel'] eqn:Ef; [lia|]. cbn [heredoc_body_loop].
    apply skipn_app_n in Hr. cbn [app] in Hr.
    destruct (heredoc_char_at f _ _ _ Hw Hr) as [Hc Hs]. rewrite Hs, Hc, N.eqb_refl.
    destruct (is_valid_heredoc (dashed k) (d ++ l) name) eqn:Ev;
      [exfalso; apply Hst1, (proj1 (valid_line k d l name Hd Hl Hn)); exact Ev|].
    cbn [andb]. rewrite (IH Hst2 fuel' (S (i + length l)) _ t z); auto.
    + rewrite <- !app_assoc. cbn [app]. rewrite !app_length. cbn [length]. rewrite !app_length.
      match goal with |- Ok (inr (_, ?x)) = Ok (inr (_, ?y)) => replace x with y by lia end. reflexivity.
    + right. eexists. reflexivity.
    + eapply skipn_cons. exact Hr.
    + lia.
Qed.

Lemma strip_unlines ls pad : Forall (fun c => c = " "%ch) pad -> strip_trailing_spaces (unlines ls ++ pad) = unlines ls.
Proof.
  intros Hp. unfold strip_trailing_spaces. rewrite rev_app_distr.
  assert (Hr : Forall (fun c => c = " "%ch) (rev pad)) by (apply Forall_rev; exact Hp).
  assert (E : strip_leading_spaces (rev pad ++ rev (unlines ls)) = strip_leading_spaces (rev (unlines ls))).
  { clear Hp. induction Hr as [|c r Hc Hr IH]; [reflexivity|]. subst c. cbn [app strip_leading_spaces].
    change (" "%ch =? " "%ch) with true. exact IH. }
  rewrite E. assert (W : whole (unlines ls)).
  { clear. induction ls as [|l ls IH]; [left; reflexivity|right]. rewrite unlines_cons.
    destruct IH as [E|(d & E)]; rewrite E; [exists l; reflexivity|exists (l ++ ch_nl :: d)].
    rewrite <- app_assoc. reflexivity. }
  destruct W as [->|(d & ->)]; [reflexivity|]. rewrite rev_app_distr. cbn [rev app strip_leading_spaces].
  change (ch_nl =? " "%ch) with false. cbv iota. cbn [rev]. rewrite rev_involutive. reflexivity.
Qed.

(** ** The first line *)

Lemma name_loop_fwd fuel : forall f d name r buf,
  at_text f (name ++ d :: r) -> Forall (fun c => c <> d /\ c <> ch_nl /\ c <> ch_cr /\ c <> 0) name ->
  (length name < fuel)%nat ->
  heredoc_name_loop fuel f d buf = Ok (Some (buf ++ name), advance_n (S (length name)) f).
Proof.
  induction fuel as [|fuel IH]; intros f d name r buf Hat Hn Hf; [lia|]. cbn [heredoc_name_loop]. cbv zeta.
  destruct Hn as [|c name (H1 & H2 & H3 & H4) Hn]; cbn [app] in Hat; rewrite (at_cur _ _ _ Hat).
  - rewrite N.eqb_refl, app_nil_r. reflexivity.
  - apply N.eqb_neq in H1, H2, H3, H4. rewrite H1, H2, H3, H4. cbn [orb]. cbn [length] in Hf |- *.
    rewrite (IH _ _ _ _ _ (at_adv _ _ _ Hat) Hn) by lia. rewrite <- app_assoc. reflexivity.
Qed.

Lemma next_line_fwd f tail : one_line tail -> forall fuel i r, wf f -> skipn i (l_input f) = tail ++ ch_nl :: r ->
  (length tail < fuel)%nat -> next_line_loop fuel f i = Ok (Some (S (i + length tail))).
Proof.
  induction tail as [|c tail IH]; intros Hl fuel i r Hw Hr Hf; destruct fuel as [|fuel]; [lia| |lia|];
    cbn [next_line_loop]; cbn [app] in Hr; destruct (heredoc_char_at f i _ _ Hw Hr) as [Hc Hs]; rewrite Hc.
  - rewrite N.eqb_refl. cbn [length]. do 3 f_equal. lia.
  - assert (En : c =? ch_nl = false) by (apply N.eqb_neq; intros ->; apply Hl; left; reflexivity).
    rewrite En, Hs. cbn [length] in *.
    rewrite (IH (fun H => Hl (or_intror H)) fuel (S i) r Hw (skipn_cons _ _ _ _ Hr)) by lia. do 3 f_equal. lia.
Qed.

Definition heredoc_begin (q : heredoc_quote) : ttype :=
  match q with Quoted 96 => T_InterpolatedShellBegin | _ => T_InterpolatedStringBegin end.
Definition heredoc_end (q : heredoc_quote) : ttype :=
  match q with Quoted 96 => T_InterpolatedShellEnd | _ => T_InterpolatedStringEnd end.
Definition heredoc_result (q : heredoc_quote) (f : lx) (doc : str) : bres :=
  match q with
  | Quoted 39 => (tkl f T_String doc, f, None)
  | _ => (tk f (heredoc_begin q), f, Some (new_heredoc_lexer f doc (heredoc_end q)))
  end.
Definition heredoc_text (k : heredoc_kind) (ls : list str) : str :=
  match k with Squiggly => dedent_heredoc (unlines ls) | _ => unlines ls end.

Lemma ident_not_mark c : ident_start c ->
  (c =? "~"%ch) = false /\ (c =? "-"%ch) = false /\ (c =? """"%ch) = false /\ (c =? "`"%ch) = false /\ (c =? "'"%ch) = false.
Proof.
  unfold ident_start. intros H.
  change ("a"%ch <= c <= "z"%ch \/ "A"%ch <= c <= "Z"%ch \/ c = "_"%ch \/ 128 <= c)
    with (97 <= c <= 122 \/ 65 <= c <= 90 \/ c = 95 \/ 128 <= c) in H.
  repeat split; apply N.eqb_neq; intros ->; vm_compute in H; intuition congruence.
Qed.

Lemma not_ident_char c : ~ ident_char c -> is_identifier_char c = false.
Proof.
  unfold ident_char, ident_start, is_identifier_char, isalnum, isalpha, isdigit, between. intros.
  destruct (c =? 0) eqn:E; [reflexivity|]. cbv beta iota. lia.
Qed.

Lemma firstn_name (b name : str) : firstn (length (b ++ name) - length name) (b ++ name) = b.
Proof.
  rewrite app_length. replace (length b + length name - length name)%nat with (length b) by lia.
  rewrite firstn_app, Nat.sub_diag, firstn_all, firstn_O, app_nil_r. reflexivity.
Qed.

Lemma closing_text k name t ls : closing k name t ->
  strip_trailing_spaces (firstn (length (unlines ls ++ t) - length name) (unlines ls ++ t)) = unlines ls.
Proof.
  intros H. assert (E : exists pad, Forall (fun c => c = " "%ch) pad /\ t = pad ++ name).
  { destruct k; [exists []; split; [constructor|exact H]|exact H|exact H]. }
  destruct E as (pad & Hp & ->). rewrite app_assoc, firstn_name. apply strip_unlines. exact Hp.
Qed.

Lemma name_one_line q name : name_ok q name -> one_line name.
Proof.
  destruct q as [|d]; cbn [name_ok].
  - intros (c & w & -> & Hc & Hw) [H|H].
    + subst c. unfold ident_start, ch_nl in Hc. vm_compute in Hc. intuition congruence.
    + eapply Forall_forall in Hw; [|exact H]. unfold ident_char, ident_start, ch_nl in Hw. vm_compute in Hw. intuition congruence.
  - intros [_ H] Hi. eapply Forall_forall in H; [|exact Hi]. intuition congruence.
Qed.
Lemma closing_one_line k q name t : name_ok q name -> closing k name t -> one_line t.
Proof.
  intros Hn Hc. apply name_one_line in Hn.
  assert (E : exists pad, Forall (fun c => c = " "%ch) pad /\ t = pad ++ name).
  { destruct k; [exists []; split; [constructor|exact Hc]|exact Hc|exact Hc]. }
  destruct E as (pad & Hp & ->). intros H. apply in_app_or in H as [H|H]; [|exact (Hn H)].
  eapply Forall_forall in Hp; [|exact H]. discriminate.
Qed.

(** The identifier, whatever follows. *)
Definition first_ident (q : heredoc_quote) (w : str) : Prop :=
  match q with Bare => is_identifier_char (hd 0 w) = false | _ => True end.

Lemma heredoc_name_fwd f q name w : at_text f (named q name ++ w) -> name_ok q name -> first_ident q w ->
  (let c := current_char f in
   if (c =? """"%ch) || (c =? "`"%ch) || (c =? "'"%ch)
    then let f := advance f in heredoc_name_loop (loop_fuel f) f c []
    else let* (w, f) := consume_word f in Ok (Some w, f)) =
  Ok (Some name, advance_n (length (named q name)) f).
Proof.
  intros Hat Hn Hf. cbv zeta. destruct q as [|d]; cbn [named name_ok first_ident] in *.
  - destruct Hn as (c & v & -> & Hc & Hv). cbn [app] in Hat. rewrite (at_cur _ _ _ Hat).
    destruct (ident_not_mark c Hc) as (_ & _ & E1 & E2 & E3). rewrite E1, E2, E3. cbn [orb].
    rewrite (consume_word_fwd f c v w Hat); [reflexivity| |exact Hf].
    eapply Forall_impl; [|exact Hv]. apply ident_char_ok.
  - destruct Hn as [Hd Hn]. cbn [app] in Hat. rewrite <- app_assoc in Hat. cbn [app] in Hat.
    rewrite (at_cur _ _ _ Hat).
    replace ((d =? """"%ch) || (d =? "`"%ch) || (d =? "'"%ch)) with true
      by (destruct Hd as [->|[->| ->]]; reflexivity).
    pose proof (at_adv _ _ _ Hat) as Hat'.
    rewrite (name_loop_fwd _ _ d name w); [|exact Hat'|exact Hn|rewrite (at_fuel _ _ Hat'), app_length; lia].
    cbn [app length]. rewrite app_length. cbn [length]. do 2 f_equal. cbn [advance_n].
    replace (length name + 1)%nat with (S (length name)) by lia. reflexivity.
Qed.

Lemma advance_n_add a b f : advance_n (a + b) f = advance_n b (advance_n a f).
Proof. revert f. induction a as [|a IH]; intros f; [reflexivity|]. cbn [plus advance_n]. apply IH. Qed.
Lemma advance_n_heredocs n f : l_heredocs (advance_n n f) = l_heredocs f.
Proof. revert f. induction n as [|n IH]; intros f; [reflexivity|]. cbn [advance_n]. rewrite IH. reflexivity. Qed.
Lemma advance_n_input n f : l_input (advance_n n f) = l_input f.
Proof. revert f. induction n as [|n IH]; intros f; [reflexivity|]. cbn [advance_n]. rewrite IH. reflexivity. Qed.

(** Where the body of a heredoc whose identifier ends before [w] begins: on the next
    line, or after the previous heredoc of the same line. *)
Definition body_at (f : lx) (w : str) (i : nat) : Prop :=
  match l_heredocs f with
  | [] => exists tail r, w = tail ++ ch_nl :: r /\ one_line tail /\ i = (l_idx f + length tail + 1)%nat
  | last :: _ => i = last
  end.

Lemma consume_heredoc_fwd f k q name w ls t z i :
  at_text f (mark k ++ named q name ++ w) -> name_ok q name -> first_ident q w ->
  let g := advance_n (length (mark k ++ named q name)) f in
  body_at g w i -> skipn i (l_input f) = unlines ls ++ t ++ z ->
  Forall one_line ls -> Forall (fun l => ~ stops k name l) ls -> closing k name t ->
  (z = [] \/ exists m, z = ch_nl :: m) ->
  consume_heredoc f = Ok (heredoc_result q
    (set_heredocs g ((i + length (unlines ls ++ t) + length (firstn 1 z))%nat :: l_heredocs f)) (heredoc_text k ls)).
Proof.
  intros Hat Hn Hid g Hb Hi Hls Hst Ht Hz. unfold consume_heredoc. cbv zeta.
  assert (Hm : exists f1, (if (current_char f =? "-"%ch) || (current_char f =? "~"%ch) then advance f else f) = f1 /\
      at_text f1 (named q name ++ w) /\ g = advance_n (length (named q name)) f1 /\ l_heredocs f1 = l_heredocs f /\
      l_input f1 = l_input f /\
      ((current_char f =? "-"%ch) || (current_char f =? "~"%ch)) = dashed k /\
      (current_char f =? "~"%ch) = match k with Squiggly => true | _ => false end).
  { unfold g. destruct k; cbn [mark app] in *.
    - assert (Hc : (current_char f =? "-"%ch) = false /\ (current_char f =? "~"%ch) = false).
      { destruct q as [|d]; cbn [named name_ok app] in *.
        - destruct Hn as (c & v & -> & Hc & Hv). cbn [app] in Hat. rewrite (at_cur _ _ _ Hat).
          destruct (ident_not_mark c Hc) as (H1 & H2 & _). auto.
        - rewrite (at_cur _ _ _ Hat). destruct Hn as [[->|[->| ->]] _]; split; reflexivity. }
      destruct Hc as [-> ->]. exists f. cbn [orb dashed]. auto 10.
    - rewrite (at_cur _ _ _ Hat). change ("-"%ch =? "-"%ch) with true. change ("-"%ch =? "~"%ch) with false.
      cbn [orb dashed]. exists (advance f). pose proof (at_adv _ _ _ Hat). auto 10.
    - rewrite (at_cur _ _ _ Hat). change ("~"%ch =? "~"%ch) with true. change ("~"%ch =? "-"%ch) with false.
      cbn [orb dashed]. exists (advance f). pose proof (at_adv _ _ _ Hat). auto 10. }
  destruct Hm as (f1 & -> & Hat1 & Hg & Hh & Hin & -> & ->).
  pose proof (heredoc_name_fwd f1 q name w Hat1 Hn Hid) as Hname. cbv zeta in Hname. rewrite Hname. cbn [bind].
  rewrite <- Hg.
  assert (Hatg : at_text g w) by (rewrite Hg; apply at_adv_n; exact Hat1).
  assert (Hgh : l_heredocs g = l_heredocs f) by (rewrite Hg, advance_n_heredocs; exact Hh).
  assert (Hgi : l_input g = l_input f) by (rewrite Hg, advance_n_input; exact Hin).
  assert (Hstart : match l_heredocs g with [] => next_line_loop (loop_fuel g) g (l_idx g) | last :: _ => Ok (Some last) end
    = Ok (Some i)).
  { unfold body_at in Hb. destruct (l_heredocs g) as [|last hs]; [|rewrite Hb; reflexivity].
    destruct Hb as (tail & r & Ew & Htl & ->). destruct Hatg as [Hw Hr].
    rewrite (next_line_fwd g tail Htl _ _ r Hw); [do 2 f_equal; lia| |].
    - unfold rest in Hr. rewrite Hr. exact Ew.
    - unfold loop_fuel. rewrite <- rest_length, Hr, Ew, app_length by exact Hw. lia. }
  rewrite Hstart. cbn [bind]. rewrite <- Hgi in Hi.
  rewrite (body_lines g k name ls (name_one_line _ _ Hn) Hls Hst _ i [] t z); auto.
  2: exact (proj1 Hatg). 2: left; reflexivity. 2: eapply closing_one_line; eauto. 2: apply closing_stops; exact Ht.
  2: { destruct Hatg as [Hw _]. unfold wf in Hw. rewrite Hw.
       pose proof (f_equal (@length _) Hi) as El. rewrite skipn_length, app_assoc, app_length in El. lia. }
  cbn [bind app]. rewrite (closing_text k) by exact Ht. rewrite Hgh.
  unfold heredoc_result, heredoc_text, heredoc_begin, heredoc_end.
  assert (Hq : current_char f1 = match q with Quoted d => d | Bare => hd 0 name end).
  { destruct q as [|d]; cbn [named app] in Hat1; [|exact (at_cur _ _ _ Hat1)].
    destruct Hn as (c & v & -> & _). cbn [app] in Hat1. exact (at_cur _ _ _ Hat1). }
  rewrite Hq. destruct q as [|d]; cbn [name_ok] in Hn.
  - destruct Hn as (c & v & -> & Hc & _). cbn [hd]. destruct (ident_not_mark c Hc) as (_ & _ & _ & E2 & E3).
    rewrite E2, E3. destruct k; reflexivity.
  - destruct Hn as [[->|[->| ->]] _]; destruct k; reflexivity.
Qed.

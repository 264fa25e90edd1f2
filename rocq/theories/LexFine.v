(** * LexFine: a checker for [fine], for the examples *)
From Coq Require Import Strings.String NArith ZArith Bool Arith List Lia ZifyBool ZifyNat ZifyN.
From Verif Require Import Base Token Spec SpecLit SpecLexeme SpecText LexModel LexBasics LexRest LexLoops LexIdent TokensProofs LexPunct.
Import ListNotations.
Open Scope N_scope.

Definition startb (c : N) : bool :=
  (("a"%ch <=? c) && (c <=? "z"%ch)) || (("A"%ch <=? c) && (c <=? "Z"%ch)) || (c =? "_"%ch) || (128 <=? c).
Definition decb (c : N) : bool := ("0"%ch <=? c) && (c <=? "9"%ch).
Definition charb (c : N) : bool := startb c || decb c.
Lemma startb_ok c : startb c = true <-> ident_start c.
Proof. unfold startb, ident_start. lia. Qed.
Lemma decb_ok c : decb c = true <-> decimal c.
Proof. unfold decb, decimal. lia. Qed.
Lemma charb_ok c : charb c = true <-> ident_char c.
Proof. unfold charb, startb, decb, ident_char, ident_start. lia. Qed.
Lemma charb_no c : charb c = false -> ~ ident_char c.
Proof. intros H H2. apply charb_ok in H2. congruence. Qed.

Definition wordb (w : str) : bool := match w with c :: r => startb c && forallb charb r | [] => false end.
Lemma wordb_ok w : wordb w = true -> word w.
Proof.
  destruct w as [|c r]; [discriminate|]. cbn [wordb]. intros H. apply andb_prop in H. destruct H as [H1 H2].
  exists c, r. split; [reflexivity|]. split; [apply startb_ok; exact H1|]. rewrite forallb_forall in H2. apply Forall_forall.
  intros x Hx. apply charb_ok. auto.
Qed.
Definition reservedb (w : str) : bool := existsb (fun p => str_eqb (fst p) w) reserved.
Lemma reservedb_no w : reservedb w = false -> ~ is_reserved w.
Proof.
  intros H [t Hin]. assert (E : reservedb w = true); [|congruence]. apply existsb_exists. exists (w, t). split; [exact Hin|]. cbn [fst]. apply str_eqb_refl.
Qed.
Fixpoint sepb (ds txt : str) : bool :=
  match ds, txt with
  | [d], [t] => d =? t
  | d :: ds, t :: txt => (d =? t) && match txt with 95 :: txt' => sepb ds txt' || sepb ds txt | _ => sepb ds txt end
  | _, _ => false
  end.
Lemma sepb_ok ds : forall txt, sepb ds txt = true -> separated ds txt.
Proof.
  induction ds as [|d ds IH]; intros txt H; [discriminate|].
  destruct txt as [|t txt]; [destruct ds; discriminate|].
  assert (G : (d =? t) && (if (hd 0 txt =? 95) then sepb ds (tl txt) || sepb ds txt else sepb ds txt) = true \/ ds = [] /\ txt = [] /\ d = t).
  { cbn [sepb] in H. destruct ds as [|e ds].
    - destruct txt; [right; apply N.eqb_eq in H; auto|]. destruct (d =? t); [|discriminate]. left. cbn [andb] in *.
      destruct n as [|[]]; cbn in H; try discriminate;
      repeat (match goal with q : positive |- _ => destruct q end; try discriminate).
    - left. destruct (d =? t); [|discriminate]. cbn [andb] in *. destruct txt as [|n txt]; [exact H|]. cbn [hd tl].
      destruct (n =? 95) eqn:E; [apply N.eqb_eq in E; subst n; exact H|].
      repeat (match goal with
        | q : positive |- _ => destruct q
        | n : N |- _ => destruct n
        end; try exact H; try discriminate). }
  destruct G as [G|(-> & -> & ->)]; [|constructor].
  apply andb_prop in G. destruct G as [G1 G2]. apply N.eqb_eq in G1. subst t.
  destruct (hd 0 txt =? 95) eqn:E.
  - apply orb_prop in G2. destruct G2 as [G2|G2].
    + destruct txt as [|n txt]; [discriminate|]. cbn [hd tl] in *. apply N.eqb_eq in E. subst n. apply sep_under. auto.
    + apply sep_next. auto.
  - apply sep_next. auto.
Qed.
Definition decimalsb (ds txt : str) : bool := sepb ds txt && forallb decb ds.
Lemma decimalsb_ok ds txt : decimalsb ds txt = true -> decimals ds txt.
Proof.
  intros H. apply andb_prop in H. destruct H as [H1 H2]. split; [apply sepb_ok; exact H1|]. rewrite forallb_forall in H2.
  apply Forall_forall. intros x Hx. apply decb_ok. auto.
Qed.
Definition suffixb (s : str) : bool := str_eqb s [] || str_eqb s (s2l "?") || str_eqb s (s2l "!").
Lemma suffixb_ok s : suffixb s = true -> suffix s.
Proof.
  unfold suffixb. intros H. apply orb_prop in H. destruct H as [H|H]; [apply orb_prop in H; destruct H as [H|H]|]; apply str_eqb_eq in H; subst s; cbn; auto.
Qed.
Definition inb (tab : list (str * ttype)) (w : str) (t : ttype) : bool := existsb (fun p => str_eqb (fst p) w && ttype_eqb (snd p) t) tab.
Lemma inb_ok tab w t : inb tab w t = true -> In (w, t) tab.
Proof.
  intros H. apply existsb_exists in H. destruct H as ([a b] & Hin & H). cbn [fst snd] in H. apply andb_prop in H. destruct H as [H1 H2].
  apply str_eqb_eq in H1. apply ttype_eqb_iff in H2. subst. exact Hin.
Qed.
Definition zerob (ds txt : str) : bool := negb (hd 0 ds =? "0"%ch) || str_eqb ds ["0"%ch] && str_eqb txt ["0"%ch].
Lemma zerob_ok ds txt : zerob ds txt = true -> hd 0 ds = "0"%ch -> ds = ["0"%ch] /\ txt = ["0"%ch].
Proof.
  unfold zerob. intros H E. rewrite E in H. change ("0"%ch =? "0"%ch) with true in H. cbn [negb orb] in H.
  apply andb_prop in H. destruct H as [H1 H2]. apply str_eqb_eq in H1, H2. auto.
Qed.

Definition soundb (l : lexeme) : bool :=
  match l with
  | L_name w s => wordb w && (suffixb s || str_eqb s (s2l "="))
  | L_key w s => wordb w && suffixb s && negb (reservedb (w ++ s))
  | L_keyword w t => inb reserved w t && negb (ttype_eqb t T_AliasKeyword) && negb (ttype_eqb t T_UndefKeyword)
  | L_int ds txt => decimalsb ds txt && zerob ds txt
  | L_float ds txt fs ftxt => decimalsb ds txt && decimalsb fs ftxt && zerob ds txt
  | L_punct w t => inb punctuation w t
  | L_ivar w | L_cvar w | L_gvar w => wordb w
  | L_symbol w s => wordb w && (suffixb s || str_eqb s (s2l "="))
  | L_string b => forallb (fun c => negb (c =? 0)) b
  | L_newline => true
  | L_comment w => forallb (fun c => negb (c =? 0) && negb (c =? ch_nl) && negb (c =? ch_cr)) w
  | L_exp ds txt frac m sg es etxt =>
      decimalsb ds txt && match frac with Some (fs, ftxt) => decimalsb fs ftxt | None => true end && decimalsb es etxt &&
      ((m =? "e"%ch) || (m =? "E"%ch)) && existsb (str_eqb sg) [[]; s2l "+"; s2l "-"] && zerob ds txt
  | L_radix m ds txt => match radix_of m with Some k => sepb ds txt && forallb (digit k) ds | None => false end
  | L_special w =>
      existsb (str_eqb w) (map (fun c => [c]) ["?"; "!"; "="; "@"; "`"; "'"; """"; "+"; "/"; "\"; ";"; "<"; ">"; "$"; "*"; "."; ","; ":"; "~"]%ch) ||
      match w with [a; c] => (a =? "-"%ch) && charb c | _ => false end
  | L_match => true
  | L_group ds => negb (str_eqb ds []) && forallb decb ds && negb (hd 0 ds =? "0"%ch) && (numval 10 ds <? 2 ^ 63)
  | L_char c => negb (c =? 0) && negb (c =? " "%ch) && negb (c =? ch_bs) && negb ((9 <=? c) && (c <=? 13))
  | L_operator w => existsb (str_eqb w) operators
  | L_variable w =>
      match w with
      | a :: b :: u => (a =? "@"%ch) && ((b =? "@"%ch) && wordb u || wordb (b :: u)) || (a =? "$"%ch) && wordb (b :: u)
      | _ => false
      end
  end.
Lemma in_str w l : existsb (str_eqb w) l = true -> In w l.
Proof. intros H. apply existsb_exists in H. destruct H as (x & Hin & E). apply str_eqb_eq in E. subst x. exact Hin. Qed.
Lemma forallb_Forall {A} (f : A -> bool) l : forallb f l = true -> Forall (fun c => f c = true) l.
Proof. intros H. rewrite forallb_forall in H. apply Forall_forall. exact H. Qed.
Lemma soundb_ok l : soundb l = true -> sound l.
Proof.
  assert (Sx : forall s, suffixb s || str_eqb s (s2l "=") = true -> suffix s \/ s = s2l "=").
  { intros s H. apply orb_prop in H. destruct H as [H|H]; [left; apply suffixb_ok; exact H|right; apply str_eqb_eq; exact H]. }
  assert (Ne : forall a b, negb (ttype_eqb a b) = true -> a <> b).
  { intros a b H E. subst b. apply negb_true_iff in H. assert (ttype_eqb a a = true) by (apply ttype_eqb_iff; reflexivity). congruence. }
  assert (Nz : forall b, forallb (fun c => negb (c =? 0)) b = true -> Forall (fun c => c <> 0) b).
  { intros b H. rewrite forallb_forall in H. apply Forall_forall. intros x Hx. specialize (H x Hx). lia. }
  assert (Nc : forall b, forallb (fun c => negb (c =? 0) && negb (c =? ch_nl) && negb (c =? ch_cr)) b = true -> Forall (fun c => c <> 0 /\ c <> ch_nl /\ c <> ch_cr) b).
  { intros b H. rewrite forallb_forall in H. apply Forall_forall. intros x Hx. specialize (H x Hx). lia. }
  destruct l; cbn [soundb sound]; intros H; auto using wordb_ok, inb_ok.
  - apply andb_prop in H. destruct H as [H1 H2]. auto using wordb_ok.
  - apply andb_prop in H. destruct H as [H1 H2]. apply andb_prop in H1. destruct H1 as [H1 H3]. auto using inb_ok.
  - apply andb_prop in H. destruct H as [H1 H2]. split; [apply decimalsb_ok; exact H1|apply zerob_ok; exact H2].
  - apply andb_prop in H. destruct H as [H1 H2]. apply andb_prop in H1. destruct H1 as [H1 H3]. split; [apply decimalsb_ok; exact H1|].
    split; [apply decimalsb_ok; exact H3|apply zerob_ok; exact H2].
  - apply andb_prop in H. destruct H as [H1 H2]. auto using wordb_ok.
  - apply andb_prop in H. destruct H as [H1 H2]. apply andb_prop in H1. destruct H1 as [H1 H3]. split; [apply wordb_ok; exact H1|].
    split; [apply suffixb_ok; exact H3|apply reservedb_no, negb_true_iff; exact H2].
  - repeat (apply andb_prop in H; let X := fresh "X" in destruct H as [H X]).
    split; [apply decimalsb_ok; unfold decimalsb; rewrite H, X4; reflexivity|]. split; [destruct frac as [[? ?]|]; [apply decimalsb_ok; exact X3|exact I]|].
    split; [apply decimalsb_ok; exact X2|]. split; [clear - X1; lia|]. split; [apply in_str; exact X0|apply zerob_ok; exact X].
  - destruct (radix_of mark) as [k|]; [|discriminate]. apply andb_prop in H. destruct H as [H1 H2]. exists k.
    split; [reflexivity|]. split; [apply sepb_ok; exact H1|apply forallb_Forall; exact H2].
  - apply orb_prop in H. destruct H as [H|H]; [left; apply in_str; exact H|right].
    destruct w as [|a [|c [|]]]; try discriminate. apply andb_prop in H. destruct H as [H1 H2]. exists c. apply N.eqb_eq in H1. subst a.
    split; [reflexivity|apply charb_ok; exact H2].
  - repeat (apply andb_prop in H; let X := fresh "X" in destruct H as [H X]).
    split; [intros ->; discriminate|]. split; [apply forallb_Forall in X1; eapply Forall_impl; [|exact X1]; apply decb_ok|].
    split; [apply N.eqb_neq, negb_true_iff; exact X0|apply N.ltb_lt; exact X].
  - lia.
  - apply in_str. exact H.
  - destruct w as [|a [|b u]]; try discriminate. apply orb_prop in H. destruct H as [H|H]; apply andb_prop in H; destruct H as [H1 H2]; apply N.eqb_eq in H1; subst a.
    + apply orb_prop in H2. destruct H2 as [H2|H2].
      * apply andb_prop in H2. destruct H2 as [H2 H3]. apply N.eqb_eq in H2. subst b. exists (s2l "@@"), u. split; [reflexivity|]. split; [cbn; auto|apply wordb_ok; exact H3].
      * exists (s2l "@"), (b :: u). split; [reflexivity|]. split; [cbn; auto|apply wordb_ok; exact H2].
    + exists (s2l "$"), (b :: u). split; [reflexivity|]. split; [cbn; auto|apply wordb_ok; exact H2].
Qed.

Lemma longestb_ok w r : longestb w r = true -> longest w r.
Proof.
  intros H w' t r' Hin E. unfold longestb in H. rewrite forallb_forall in H. specialize (H _ Hin). cbn [fst] in H.
  apply orb_prop in H. destruct H as [H|H]; [apply Nat.leb_le; exact H|]. exfalso. apply negb_true_iff in H.
  unfold prefixb in H. rewrite E, firstn_app, Nat.sub_diag, firstn_all in H. cbn [firstn] in H. rewrite app_nil_r in H.
  assert (str_eqb w' w' = true) by apply str_eqb_refl. congruence.
Qed.

Definition imp (a b : bool) : bool := negb a || b.
Definition is (r : str) (c : N) : bool := hd 0 r =? c.
Definition blank_nextb (r : str) : bool := is r " "%ch || is r ch_nl.
Definition tyb := ttype_eqb.
Definition apartb (p : place) (ws : bool) : bool := imp (tyb (prev p) T_InterpolatedStringEnd) ws.
Lemma apartb_ok p ws : apartb p ws = true -> apart p ws.
Proof. intros H E. unfold apartb, imp, tyb in H. rewrite E in H. exact H. Qed.
Definition fitsb (p : place) (ws : bool) (l : lexeme) (r : str) : bool :=
  match l with
  | L_name w s =>
      imp (numeric (prev p)) (negb (is w "i"%ch) && negb (is w "r"%ch)) &&
      (if str_eqb s (s2l "=") then (setter p || naming p && negb (tyb (prev p) T_Dot)) && imp (reservedb w) (naming p && negb (str_eqb w (s2l "self")))
       else negb (charb (hd 0 r)) && negb (is r "?"%ch) && negb (is r "!"%ch) &&
         imp (reservedb (w ++ s)) (naming p && negb (str_eqb (w ++ s) (s2l "self"))) &&
         imp (is r ":"%ch) (str_eqb s [] && is (tl r) ":"%ch)) &&
      imp (str_eqb s [] && is r "="%ch) (negb (setter p) && imp (naming p) (tyb (prev p) T_Dot))
  | L_keyword w t =>
      (negb (naming p) || tyb t T_SelfKeyword && is r "."%ch && negb (tyb (prev p) T_Dot) && negb (tyb (prev p) T_ConstantResolution)) &&
      negb (charb (hd 0 r)) && negb (is r "?"%ch) && negb (is r "!"%ch) && negb (is r ":"%ch)
  | L_int _ _ => negb (charb (hd 0 r)) && imp (is r "."%ch) (negb (decb (hd 0 (tl r))))
  | L_float _ _ _ _ => negb (charb (hd 0 r))
  | L_punct w t =>
      longestb w r &&
      match t with
      | T_Equal => negb (prefixb (s2l "begin") r)
      | T_Plus | T_Minus | T_Not | T_Tilde => imp (naming p) (negb (is r "@"%ch))
      | T_Slash => ends_value (prev p) && (is r " "%ch || negb ws)
      | T_SlashEqual => ends_value (prev p) && negb (naming p)
      | T_Percent => blank_nextb r
      | T_LeftShift => ws && blank_nextb r
      | T_TernaryQuestion => blank_nextb r
      | T_TernaryColon => blank_nextb r && apartb p ws
      | _ => true
      end
  | L_ivar _ | L_cvar _ | L_gvar _ => negb (charb (hd 0 r))
  | L_symbol w s =>
      (if str_eqb s [] then negb (charb (hd 0 r)) && imp (is r "?"%ch || is r "!"%ch || is r "="%ch) (is (tl r) ">"%ch)
       else negb (is r ">"%ch)) && apartb p ws
  | L_key w s => starts_pair (prev p) && negb (is r ":"%ch)
  | L_string _ => negb (is r ":"%ch)
  | L_newline => true
  | L_comment _ => negb (tyb (prev p) T_Invalid) && negb (tyb (prev p) T_Newline) && (str_eqb r [] || is r ch_nl || is r ch_cr)
  | L_exp _ _ _ _ _ _ _ => negb (charb (hd 0 r))
  | L_radix _ _ _ => negb (charb (hd 0 r)) && imp (is r "."%ch) (negb (decb (hd 0 (tl r))))
  | L_special _ | L_match => true
  | L_group _ => negb (decb (hd 0 r))
  | L_char _ => negb (charb (hd 0 r))
  | L_operator w =>
      forallb (fun p => (length p <=? length w)%nat || negb (prefixb p (w ++ r))) operators &&
      imp (existsb (str_eqb w) [s2l "!"; s2l "~"]) (negb (is r "@"%ch)) && apartb p ws
  | L_variable _ => negb (charb (hd 0 r)) && apartb p ws
  end.

Lemma tyb_no a b : tyb a b = false -> a <> b.
Proof. intros H E. subst b. assert (ttype_eqb a a = true) by (apply ttype_eqb_iff; reflexivity). unfold tyb in H. congruence. Qed.
Lemma str_no a b : str_eqb a b = false -> a <> b.
Proof. intros H E. subst b. assert (str_eqb a a = true) by apply str_eqb_refl. congruence. Qed.
Lemma is_no r c : is r c = false -> hd 0 r <> c.
Proof. apply N.eqb_neq. Qed.
Lemma is_yes r c : is r c = true -> hd 0 r = c.
Proof. apply N.eqb_eq. Qed.
Lemma imp_ok a b : imp a b = true -> a = true -> b = true.
Proof. intros H ->. exact H. Qed.
Lemma blank_nextb_ok r : blank_nextb r = true -> blank_next r.
Proof. intros H. apply orb_prop in H. destruct H as [H|H]; apply is_yes in H; [left|right]; exact H. Qed.
Ltac split_and := repeat match goal with
  | H : _ && _ = true |- _ => let H1 := fresh "B" in let H2 := fresh "B" in apply andb_prop in H; destruct H as [H1 H2]
  | H : negb _ = true |- _ => apply negb_true_iff in H
  end.
Lemma reserved_dec w : is_reserved w -> reservedb w = true.
Proof. intros H. destruct (reservedb w) eqn:E; [reflexivity|]. apply reservedb_no in E. contradiction. Qed.

Lemma and_assoc_r (A B C : Prop) : A /\ B /\ C <-> (A /\ B) /\ C.
Proof. tauto. Qed.
Lemma fitsb_ok p ws l r : fitsb p ws l r = true -> fits p ws l r.
Proof.
  destruct l; cbn [fitsb fits]; intros H.
  - apply andb_prop in H. destruct H as [H X3]. apply andb_prop in H. destruct H as [X1 X2].
    split; [|split; [|split]].
    + intros E. apply (imp_ok _ _ X1) in E. split_and. split; apply is_no; assumption.
    + intros ->. change (str_eqb (s2l "=") (s2l "=")) with true in X2. cbv iota in X2. apply andb_prop in X2. destruct X2 as [X2 X4]. split.
      * apply orb_prop in X2. destruct X2 as [X2|X2]; [left; exact X2|right]. split_and. auto using tyb_no.
      * intros Hr. apply reserved_dec in Hr. apply (imp_ok _ _ X4) in Hr. split_and. auto using str_no.
    + intros Hs. destruct (str_eqb suffix (s2l "=")) eqn:Es; [apply str_eqb_eq in Es; contradiction|].
      apply andb_prop in X2. destruct X2 as [X2 X4]. apply andb_prop in X2. destruct X2 as [X2 X5]. split_and.
      split; [apply charb_no; assumption|]. split; [apply is_no; assumption|]. split; [apply is_no; assumption|]. split.
      * intros Hr. apply reserved_dec in Hr. apply (imp_ok _ _ X5) in Hr. split_and. auto using str_no.
      * intros E. apply (proj2 (N.eqb_eq _ _)) in E. apply (imp_ok _ _ X4) in E. split_and. split; [apply str_eqb_eq; assumption|apply is_yes; assumption].
    + intros -> E. apply (proj2 (N.eqb_eq _ _)) in E. unfold is in X3. rewrite E in X3. change (str_eqb [] []) with true in X3. cbn [andb] in X3.
      apply (fun h => imp_ok _ _ h eq_refl) in X3. split_and. split; [assumption|]. intros En. apply (imp_ok _ _ B0) in En. apply ttype_eqb_iff. exact En.
  - apply andb_prop in H. destruct H as [H X5]. apply andb_prop in H. destruct H as [H X4]. apply andb_prop in H. destruct H as [H X3]. apply andb_prop in H. destruct H as [X1 X2].
    split_and. split; [|split].
    + apply orb_prop in X1. destruct X1 as [X1|X1]; [left; apply negb_true_iff; exact X1|right]. split_and.
      split; [apply ttype_eqb_iff; assumption|]. split; [apply is_yes; assumption|]. auto using tyb_no.
    + apply charb_no; assumption.
    + apply is_no in X3, X4, X5. cbn [In]. intuition congruence.
  - apply andb_prop in H. destruct H as [X1 X2]. apply negb_true_iff in X1. split; [apply charb_no; assumption|].
    intros E. apply (proj2 (N.eqb_eq _ _)) in E. apply (imp_ok _ _ X2) in E. apply negb_true_iff in E. intros D. apply decb_ok in D. congruence.
  - apply negb_true_iff in H. apply charb_no. exact H.
  - apply andb_prop in H. destruct H as [X1 X2]. split; [apply longestb_ok; exact X1|].
    destruct t; try exact I; try (intros E; apply (imp_ok _ _ X2) in E; apply negb_true_iff in E; apply is_no; exact E); try (apply blank_nextb_ok; exact X2).
    all: try (apply andb_prop in X2; destruct X2 as [X2 X3]).
    + apply negb_true_iff in X2. intros [r' ->]. unfold prefixb in X2. rewrite firstn_app, Nat.sub_diag, firstn_all in X2. cbn [firstn] in X2.
      rewrite app_nil_r, str_eqb_refl in X2. discriminate.
    + split; [exact X2|apply blank_nextb_ok; exact X3].
    + split; [exact X2|]. apply orb_prop in X3. destruct X3 as [X3|X3]; [left; apply is_yes; exact X3|right; apply negb_true_iff; exact X3].
    + split; [exact X2|apply negb_true_iff; exact X3].
    + split; [apply blank_nextb_ok; exact X2|apply apartb_ok; exact X3].
  - apply negb_true_iff in H. apply charb_no. exact H.
  - apply negb_true_iff in H. apply charb_no. exact H.
  - apply negb_true_iff in H. apply charb_no. exact H.
  - apply andb_prop in H. destruct H as [H X9]. apply apartb_ok in X9. rewrite and_assoc_r. split; [|exact X9]. destruct (str_eqb suffix []) eqn:Es.
    + apply str_eqb_eq in Es. subst suffix. apply andb_prop in H. destruct H as [X1 X2]. apply negb_true_iff in X1. split; [|congruence].
      intros _. split; [apply charb_no; exact X1|]. intros Hin. apply is_yes. apply (imp_ok _ _ X2). unfold is. cbn [In] in Hin.
      destruct Hin as [<-|[<-|[<-|[]]]]; reflexivity.
    + split; [intros ->; discriminate|]. intros _. apply negb_true_iff in H. apply is_no. exact H.
  - split_and. split; [assumption|apply is_no; assumption].
  - apply negb_true_iff in H. apply is_no. exact H.
  - exact I.
  - apply andb_prop in H. destruct H as [H X3]. split_and. split; [apply tyb_no; assumption|]. split; [apply tyb_no; assumption|].
    apply orb_prop in X3. destruct X3 as [X3|X3]; [apply orb_prop in X3; destruct X3 as [X3|X3]|];
      [left; apply str_eqb_eq; exact X3|right; left; apply is_yes; exact X3|right; right; apply is_yes; exact X3].
  - apply negb_true_iff in H. apply charb_no. exact H.
  - apply andb_prop in H. destruct H as [X1 X2]. apply negb_true_iff in X1. split; [apply charb_no; assumption|].
    intros E. apply (proj2 (N.eqb_eq _ _)) in E. apply (imp_ok _ _ X2) in E. apply negb_true_iff in E. intros D. apply decb_ok in D. congruence.
  - exact I.
  - exact I.
  - apply negb_true_iff in H. intros D. apply decb_ok in D. congruence.
  - apply negb_true_iff in H. apply charb_no. exact H.
  - apply andb_prop in H. destruct H as [H X9]. apply apartb_ok in X9. rewrite and_assoc_r. split; [|exact X9].
    apply andb_prop in H. destruct H as [X1 X2]. split.
    + intros w' r' Hin E. rewrite forallb_forall in X1. specialize (X1 _ Hin).
      apply orb_prop in X1. destruct X1 as [X1|X1]; [apply Nat.leb_le; exact X1|]. exfalso. apply negb_true_iff in X1.
      unfold prefixb in X1. rewrite E, firstn_app, Nat.sub_diag, firstn_all in X1. cbn [firstn] in X1. rewrite app_nil_r in X1.
      assert (str_eqb w' w' = true) by apply str_eqb_refl. congruence.
    + intros Hin. assert (E : existsb (str_eqb w) [s2l "!"; s2l "~"] = true) by (apply existsb_exists; exists w; split; [exact Hin|apply str_eqb_refl]).
      apply (imp_ok _ _ X2) in E. apply negb_true_iff in E. apply is_no. exact E.
  - apply andb_prop in H. destruct H as [H X9]. split; [apply negb_true_iff in H; apply charb_no; exact H|apply apartb_ok; exact X9].
Qed.

Fixpoint blanksb (b : str) : bool :=
  match b with
  | [] => true
  | c :: b' => if (c =? " "%ch) || (c =? ch_tab) then blanksb b'
               else match b' with d :: b'' => (c =? ch_bs) && (d =? ch_nl) && blanksb b'' | [] => false end
  end.
Lemma blanksb_ok n : forall b, (length b <= n)%nat -> blanksb b = true -> blanks b.
Proof.
  induction n as [|n IH]; intros b Hn H; (destruct b as [|c b]; [constructor|]); cbn [length] in Hn; [lia|]. cbn [blanksb] in H.
  destruct ((c =? " "%ch) || (c =? ch_tab)) eqn:E.
  - apply orb_prop in E. destruct E as [E|E]; apply N.eqb_eq in E; subst c; constructor; apply IH; auto; lia.
  - destruct b as [|d b]; [discriminate|]. split_and. apply N.eqb_eq in B1, B2. subst c d. constructor. apply IH; [cbn [length] in Hn; lia|assumption].
Qed.
Fixpoint fineb (p : place) (items : list (str * lexeme)) (tail : str) : bool :=
  match items with
  | [] => blanksb tail
  | (b, l) :: more => blanksb b && soundb l && fitsb p (blank_before b) l (written more tail) && fineb (behind p l) more tail
  end.
Lemma fineb_ok items tail : forall p, fineb p items tail = true -> fine p items tail.
Proof.
  induction items as [|[b l] more IH]; intros p H; cbn [fineb fine] in *; [eapply blanksb_ok; eauto|].
  apply andb_prop in H. destruct H as [H X4]. apply andb_prop in H. destruct H as [H X3]. apply andb_prop in H. destruct H as [X1 X2].
  split; [eapply blanksb_ok; eauto|]. auto using soundb_ok, fitsb_ok.
Qed.

(** ** Texts with interpolated strings *)
(** Only characters, quoted characters, named escapes and joined lines. *)
Definition pieceb (start stop : N) (p : piece) (n : N) : bool :=
  match p with
  | PChar c => negb (c =? 0) && negb (c =? ch_bs) && negb (c =? start) && negb (c =? stop) && negb ((c =? "#"%ch) && (n =? "{"%ch))
  | PQuoted c => negb (c =? 0) && negb (escape_letter c)
  | PNamed c => existsb (fun q => fst q =? c) named_escapes
  | PJoin => true
  | _ => false
  end.
Lemma pieceb_ok start stop p n : pieceb start stop p n = true -> piece_ok start stop p n.
Proof.
  destruct p; cbn [pieceb piece_ok]; intros H; try discriminate.
  - unfold ch_bs in *. lia.
  - apply andb_prop in H. destruct H as [H1 H2]. split; [lia|]. apply negb_true_iff. exact H2.
  - apply existsb_exists in H. destruct H as ([x v] & Hin & E). cbn [fst] in E. apply N.eqb_eq in E. subst x. eauto.
  - exact I.
Qed.
Fixpoint bodyb (start stop : N) (ps : list piece) (n : N) : bool :=
  match ps with [] => true | p :: ps => pieceb start stop p (hd n (body_text ps)) && bodyb start stop ps n end.
Lemma bodyb_ok start stop ps : bodyb start stop ps stop = true -> body_ok start stop ps.
Proof. induction ps as [|p ps IH]; cbn [bodyb body_ok]; intros H; [exact I|]. apply andb_prop in H. destruct H as [H1 H2]. auto using pieceb_ok. Qed.
Lemma bodyb_before start stop ps n : bodyb start stop ps n = true -> body_before start stop ps n.
Proof. induction ps as [|p ps IH]; cbn [bodyb body_before]; intros H; [exact I|]. apply andb_prop in H. destruct H as [H1 H2]. auto using pieceb_ok. Qed.
Definition delimitersb (a b : N) : bool :=
  existsb (fun q => (fst q =? a) && (snd q =? b)) [("(", ")"); ("[", "]"); ("{", "}"); ("<", ">")]%ch
  || ((a =? b) && existsb (N.eqb a) (s2l "!""$%&'*+,-./:;=?@^_`|~")).
Lemma delimitersb_ok a b : delimitersb a b = true -> delimiters a b.
Proof.
  intros H. apply orb_prop in H. destruct H as [H|H].
  - apply existsb_exists in H. destruct H as ([x y] & Hin & E). cbn [fst snd] in E. apply andb_prop in E. destruct E as [E1 E2].
    apply N.eqb_eq in E1, E2. subst x y. cbn [In] in Hin. repeat destruct Hin as [Hin|Hin]; try contradiction; injection Hin as <- <-; constructor.
  - apply andb_prop in H. destruct H as [E H]. apply N.eqb_eq in E. subst b. apply delim_same.
    apply existsb_exists in H. destruct H as (x & Hin & E). apply N.eqb_eq in E. subst x. exact Hin.
Qed.
Definition openingb (op : str) (a b : N) (bt et : ttype) : bool :=
  match bt, et with
  | T_InterpolatedStringBegin, T_InterpolatedStringEnd =>
      (str_eqb op (s2l """") && (a =? """"%ch) && (b =? """"%ch)) || (str_eqb op ["%"; "Q"; a]%ch && delimitersb a b)
      || (str_eqb op ["%"; a]%ch && delimitersb a b && negb (a =? "="%ch))
  | T_InterpolatedShellBegin, T_InterpolatedShellEnd =>
      (str_eqb op (s2l "`") && (a =? "`"%ch) && (b =? "`"%ch)) || (str_eqb op ["%"; "x"; a]%ch && delimitersb a b)
  | T_InterpolatedSymbolBegin, T_InterpolatedSymbolEnd => str_eqb op (s2l ":""") && (a =? """"%ch) && (b =? """"%ch)
  | _, _ => false
  end.
Lemma openingb_ok op a b bt et : openingb op a b bt et = true -> opening op a b bt et.
Proof.
  assert (S3 : forall w x y, str_eqb op w && (a =? x) && (b =? y) = true -> op = w /\ a = x /\ b = y).
  { intros w x y H. apply andb_prop in H. destruct H as [H H3]. apply andb_prop in H. destruct H as [H1 H2].
    apply str_eqb_eq in H1. apply N.eqb_eq in H2, H3. auto. }
  assert (S2 : forall w, str_eqb op w && delimitersb a b = true -> op = w /\ delimiters a b).
  { intros w H. apply andb_prop in H. destruct H as [H1 H2]. apply str_eqb_eq in H1. auto using delimitersb_ok. }
  intros H. destruct bt; try discriminate; destruct et; try discriminate; cbn [openingb] in H.
  - apply orb_prop in H. destruct H as [H|H]; [apply S3 in H; destruct H as (-> & -> & ->)|apply S2 in H; destruct H as [-> H]]; constructor. exact H.
  - apply orb_prop in H. destruct H as [H|H]; [apply orb_prop in H; destruct H as [H|H]|].
    + apply S3 in H; destruct H as (-> & -> & ->). constructor.
    + apply S2 in H; destruct H as [-> H]. constructor. exact H.
    + apply andb_prop in H. destruct H as [H X]. apply S2 in H; destruct H as [-> H]. constructor; [exact H|lia].
  - apply S3 in H; destruct H as (-> & -> & ->). constructor.
Qed.
Definition levelb (m : depth) : bool := match m with None | Some O => true | _ => false end.
Lemma levelb_ok m : levelb m = true -> level m.
Proof. destruct m as [[|d]|]; intros H; [right; reflexivity|discriminate|left; reflexivity]. Qed.

Fixpoint element_fineb (p : place) (m : depth) (ws : bool) (e : element) (r : str) : bool :=
  match e with
  | E_word l => soundb l && fitsb p ws l r
  | E_literal op a b bt et ps =>
      openingb op a b bt et && negb (naming p) && (negb (ttype_eqb bt T_InterpolatedSymbolBegin) || apartb p ws) && levelb m &&
      parts_fineb a b ps (b :: r)
  end
with parts_fineb (a b : N) (ps : parts) (r : str) : bool :=
  match ps with
  | P_end ps => bodyb a b ps b
  | P_code ps code more =>
      bodyb a b ps "#"%ch && items_fineb start (Some O) code ("}"%ch :: inner more ++ r) && parts_fineb a b more r
  end
with items_fineb (p : place) (m : depth) (c : items) (r : str) : bool :=
  match c with
  | I_end tail => blanksb tail && levelb m
  | I_item b e more =>
      blanksb b && element_fineb p m (blank_before b) e (text more ++ r) &&
      match braces m e with Some m' => items_fineb (after p m e) m' more r | None => false end
  end.
Lemma tree_fineb : (forall e p m ws r, element_fineb p m ws e r = true -> element_fine p m ws e r) /\
  (forall ps a b r, parts_fineb a b ps r = true -> parts_fine a b ps r) /\
  (forall c p m r, items_fineb p m c r = true -> items_fine p m c r).
Proof.
  apply tree_ind.
  - intros l p m ws r H. cbn [element_fineb element_fine] in *. apply andb_prop in H. destruct H. auto using soundb_ok, fitsb_ok.
  - intros op a b bt et ps IH p m ws r H. cbn [element_fineb element_fine] in *.
    apply andb_prop in H. destruct H as [H X5]. apply andb_prop in H. destruct H as [H X4]. apply andb_prop in H. destruct H as [H X3]. apply andb_prop in H. destruct H as [X1 X2].
    split; [apply openingb_ok; exact X1|]. split; [apply negb_true_iff; exact X2|]. split; [|split; [apply levelb_ok; exact X4|apply IH; exact X5]].
    intros ->. apply apartb_ok. exact X3.
  - intros ps a b r H. apply bodyb_ok. exact H.
  - intros ps code IHc more IHm a b r H. cbn [parts_fineb parts_fine] in *. apply andb_prop in H. destruct H as [H X3]. apply andb_prop in H. destruct H as [X1 X2].
    auto using bodyb_before.
  - intros tail p m r H. cbn [items_fineb items_fine] in *. apply andb_prop in H. destruct H as [H1 H2]. split; [eapply blanksb_ok; eauto|apply levelb_ok; exact H2].
  - intros b e IHe more IHm p m r H. cbn [items_fineb items_fine] in *. apply andb_prop in H. destruct H as [H X3]. apply andb_prop in H. destruct H as [X1 X2].
    split; [eapply blanksb_ok; eauto|]. split; [apply IHe; exact X2|]. destruct (braces m e); [apply IHm; exact X3|discriminate].
Qed.
Lemma items_fineb_ok c : items_fineb start None c [] = true -> items_fine start None c [].
Proof. apply tree_fineb. Qed.

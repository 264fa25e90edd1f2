(** * RubyQuoted: quoted literals

    [Spine] for strings, symbols and shell commands with code.  No code is modelled here. *)
From Coq Require Import Strings.String NArith ZArith Bool List Lia.
From Verif Require Import Base Token Node ParserBase ParserModel Sexp SpecRuby RubyTransform RubyNodes RubyBase RubyRun RubyBody RubyExpr.
Import ListNotations.
Open Scope N_scope.
Open Scope list_scope.

(** ** Transforms *)
Lemma stands_one v m m' : stands v m -> stands v m' -> m = m'.
Proof.
  intros (s & <- & H) (s' & <- & H'). set (c := Creator false 0 0 None []). specialize (H c eq_refl). specialize (H' c eq_refl).
  rewrite H in H'. unfold push in H'. cbn in H'. injection H' as ->. reflexivity.
Qed.
Lemma tr_evaluate t x : transform (N_EvaluateToString t x) =
  (set_type "evstr" >> (match x with Some x => append_node x (transform x) | None => tdone end)).
Proof. eqn. Qed.
Lemma stands_evaluate t x m : stands x m -> stands (N_EvaluateToString t (Some x)) (sx "evstr" [m]).
Proof. stand2 tr_evaluate. Qed.
Lemma stands_evaluate_none t : stands (N_EvaluateToString t None) (sx "evstr" []).
Proof. stand2 tr_evaluate. Qed.
Lemma stands_shell t s : stands (N_Shell t s) (sx "xstr" [SStr s]).
Proof. stand. Qed.
Lemma tr_dsym t l : transform (N_InterpolatedSymbol t l) = (set_type "dsym" >> append_interpolated (appends l)).
Proof. eqn. Qed.
Lemma tr_dxstr t l : transform (N_InterpolatedShell t l) = (set_type "dxstr" >> append_interpolated (appends l)).
Proof. eqn. Qed.

Ltac inside := match goal with x : list node |- _ => destruct x as [|[] []] end.
(** The node that a string appends for one of its own. *)
Definition part (x : node) : node :=
  match x with
  | N_EvaluateToString _ (Some (N_InterpolatedString _ [N_EvaluateToString t e])) => N_EvaluateToString t e
  | _ => x
  end.
Definition parts (l : list node) : list (node * T) := map (fun x => (x, append_node (part x) (transform (part x)))) l.
Lemma part_append x : match x with
    | N_EvaluateToString _ (Some (N_InterpolatedString _ [N_EvaluateToString _ _ as e])) => append_node e (transform e)
    | _ => append_node x (transform x) end = append_node (part x) (transform (part x)).
Proof.
  destruct x; try reflexivity. destruct n as [n|]; [|reflexivity]. destruct n; try reflexivity. inside; reflexivity.
Qed.
Lemma tr_dstr t l : transform (N_InterpolatedString t l) = transform_interpolated_string (parts l).
Proof.
  change (transform (N_InterpolatedString t l)) with (transform_interpolated_string
        ((fix go (l : list node) : list (node * T) :=
            match l with
            | [] => []
            | x :: l' =>
                (x, match x with
                    | N_EvaluateToString _
                        (Some (N_InterpolatedString _ [N_EvaluateToString _ _ as e])) =>
                        append_node e (transform e)
                    | _ => append_node x (transform x)
                    end) :: go l'
            end) l)).
  f_equal. unfold parts. induction l as [|x l IH]; [reflexivity|]. cbn [map]. rewrite <- IH, part_append. reflexivity.
Qed.

(** Text, as a node and as an s-expression. *)
Definition text_of (v : node) : option str := match v with N_String _ s => Some s | _ => None end.
Definition sexp_text (m : sexp) : option str :=
  match m with Sexp _ _ _ [SSym tag; SStr x] => if str_eqb tag (s2l "str") then Some x else None | _ => None end.
Lemma leading_text s v r : leading s (v :: r) = match sexp_text v with Some x => leading (s ++ x) r | None => (s, v :: r) end.
Proof.
  destruct v; try reflexivity.
  destruct items as [|[] [|[] []]]; try reflexivity. cbn [leading sexp_text]. match goal with |- context [str_eqb ?x ?y] => destruct (str_eqb x y) end; reflexivity.
Qed.
Lemma interpolated_text tag v r : interpolated tag (v :: r) = match sexp_text v with Some x => sx tag (SStr x :: r) | None => sx tag (SStr [] :: v :: r) end.
Proof.
  destruct v; try reflexivity.
  destruct items as [|[] [|[] []]]; try reflexivity. cbn [interpolated sexp_text]. match goal with |- context [str_eqb ?x ?y] => destruct (str_eqb x y) end; reflexivity.
Qed.
Lemma prefix_text s v f r : static_prefix s ((v, f) :: r) = match text_of v with Some x => static_prefix (s ++ x) r | None => (s, (v, f) :: r) end.
Proof. destruct v; reflexivity. Qed.
Lemma append_interpolated_text v f r : append_interpolated ((v, f) :: r) =
  match text_of v with Some x => append_string x >> append_all r | None => append_string [] >> append_all ((v, f) :: r) end.
Proof. destruct v; reflexivity. Qed.
Lemma all_parts l : append_all (parts l) = append_all (appends (map part l)).
Proof.
  unfold append_all, parts, appends. rewrite map_map. induction l as [|x l IH]; [reflexivity|]. cbn [map fold_right snd]. rewrite IH. reflexivity.
Qed.
Definition same_text (f : node -> node) (v : node) (m : sexp) : Prop := stands (f v) m /\ text_of v = sexp_text m.
Lemma same_prefix l ms : Forall2 (same_text part) l ms -> forall acc, exists s l' ms',
  static_prefix acc (parts l) = (s, parts l') /\ leading acc ms = (s, ms') /\ Forall2 stands (map part l') ms'.
Proof.
  induction 1 as [|v m l ms [Sv Tv] Hl IH]; intros acc.
  - exists acc, [], []. repeat split. constructor.
  - cbn [parts map]. rewrite prefix_text, leading_text, <- Tv. destruct (text_of v) as [x|]; [apply IH|].
    exists acc, (v :: l), (m :: ms). split; [reflexivity|]. split; [reflexivity|]. cbn [map]. constructor; [exact Sv|].
    clear - Hl. induction Hl as [|v m l ms [Sv _] Hl IH]; constructor; assumption.
Qed.
Lemma stands_dstr t l ms : l <> [] -> Forall2 (same_text part) l ms -> stands (N_InterpolatedString t l) (string_meaning ms).
Proof.
  intros N H. destruct (same_prefix l ms H []) as (s & l' & ms' & P & Q & R). unfold string_meaning. rewrite Q.
  assert (Tr : transform (N_InterpolatedString t l) =
    (set_type "dstr" >> match l' with [] => append_string s >> set_type "str" | _ => append_string s >> append_all (appends (map part l')) end)).
  { rewrite tr_dstr. unfold transform_interpolated_string. rewrite P, <- all_parts. destruct l; [congruence|]. cbn [parts map]. destruct l'; reflexivity. }
  destruct l' as [|v l'].
  - inversion R; subst ms'. stand2 Tr.
  - inversion R; subst. rename H2 into S1, H4 into S2.
    assert (F2 : Forall2 stands (map part (v :: l')) (y :: l'0)) by (constructor; assumption). clear S1 S2 R H P Q. stand2 Tr.
Qed.
Lemma stands_interpolated (tag : string) n l ms : (forall t, n <> N_Nil t) ->
  transform n = (set_type tag >> append_interpolated (appends l)) -> (tag = "dsym" \/ tag = "dxstr")%string ->
  l <> [] -> Forall2 (same_text (fun v => v)) l ms -> stands n (interpolated tag ms).
Proof.
  intros Nn Tr Ht N H. destruct H as [|v m l ms [Sv Tv] H]; [congruence|].
  assert (F2 : Forall2 stands l ms) by (clear - H; induction H as [|? ? ? ? [? _] ? ?]; constructor; assumption).
  cbn [appends map] in Tr. rewrite append_interpolated_text in Tr. rewrite interpolated_text, <- Tv.
  change (map (fun x => (x, append_node x (transform x))) l) with (appends l) in Tr. clear Tv H N.
  destruct (text_of v) as [x|].
  - opens. eapply stands_intro; [exact Nn|eexists; split; [rewrite Tr; go2; reflexivity|reflexivity]|].
    unfold sx. destruct Ht as [->| ->]; cbn; congruence.
  - assert (F3 : Forall2 stands (v :: l) (m :: ms)) by (constructor; assumption). clear Sv F2. opens.
    change ((v, append_node v (transform v)) :: appends l) with (appends (v :: l)) in Tr.
    eapply stands_intro; [exact Nn|eexists; split; [rewrite Tr; go2; reflexivity|reflexivity]|].
    unfold sx. destruct Ht as [->| ->]; cbn; congruence.
Qed.

(** ** The pieces *)
Definition piece_node (l : list str) (p : piece rb) (v : node) : Prop :=
  match p with
  | S_text t => v = N_String t (name t)
  | S_code _ b _ => exists ct bt ws, goods fst l (snd b) ws /\ v = evaluate_node ct bt ws
  end.
Fixpoint piece_nodes (l : list str) (ps : list (piece rb)) (vs : list node) : Prop :=
  match ps, vs with
  | [], [] => True
  | p :: ps, v :: vs => piece_node l p v /\ piece_nodes (piece_after after l p) ps vs
  | _, _ => False
  end.
Lemma evstr_text l b : sexp_text (code_meaning after meaning l b) = None.
Proof. unfold code_meaning, sx, sexp_text. destruct (block _) as [|[] []]; reflexivity. Qed.
Lemma inner_text l x : only_code x = true -> sexp_text (inner_code l x) = None.
Proof.
  induction x; cbn [only_code inner_code]; try discriminate; [exact IHx|]. destruct ps as [|[] []]; try discriminate. intros _. apply evstr_text.
Qed.
Lemma evaluate_one ct bt w : n_shape w <> 1 -> evaluate_node ct bt [w] = N_EvaluateToString ct (Some w).
Proof. destruct w; try reflexivity. intros H. exfalso. apply H. reflexivity. Qed.
Lemma part_other ct w : n_shape w <> 2 -> part (N_EvaluateToString ct (Some w)) = N_EvaluateToString ct (Some w).
Proof. destruct w; try reflexivity. inside; try reflexivity. intros H. exfalso. apply H. reflexivity. Qed.
Lemma shape_two w : n_shape w = 2 -> exists t t1 x, w = N_InterpolatedString t [N_EvaluateToString t1 x].
Proof. destruct w; try discriminate. inside; try discriminate. intros _. do 3 eexists. reflexivity. Qed.
Lemma shape_one w : n_shape w = 1 -> exists t s, w = N_String t s.
Proof. destruct w; try discriminate; [inside; discriminate|]. intros _. do 2 eexists. reflexivity. Qed.

(** The code of a piece, as it stands. *)
Lemma code_stands l b ct bt ws : goods fst l (snd b) ws -> match ws with [w] => n_shape w <> 1 | _ => True end ->
  stands (evaluate_node ct bt ws) (code_meaning after meaning l b) /\
  match ws with [w] => evaluate_node ct bt ws = N_EvaluateToString ct (Some w) | _ => part (evaluate_node ct bt ws) = evaluate_node ct bt ws end.
Proof.
  intros G N. pose proof (goods_stands fst _ _ _ G) as S. unfold code_meaning, body_meaning.
  destruct S as [|w m ws ms Sw S]; [split; [apply stands_evaluate_none|reflexivity]|].
  destruct S as [|w2 m2 ws ms Sw2 S].
  - rewrite (evaluate_one ct bt w N). split; [|reflexivity]. cbn [block]. apply stands_evaluate. exact Sw.
  - cbn [evaluate_node]. assert (X : match w with N_String _ _ | _ => N_EvaluateToString ct (Some (N_Block bt (w :: w2 :: ws))) end = N_EvaluateToString ct (Some (N_Block bt (w :: w2 :: ws)))) by (destruct w; reflexivity).
    rewrite X. split; [|reflexivity]. cbn [block]. apply stands_evaluate, stands_block. constructor; [assumption|]. constructor; assumption.
Qed.
Lemma piece_part (string : bool) l p v : piece_node l p v ->
  same_text (if string then part else fun v => v) v (piece_meaning after meaning string plain_string only_code inner_code l p).
Proof.
  destruct p as [t|o b c]; cbn [piece_node piece_meaning].
  - intros ->. split; [|reflexivity]. destruct string; apply stands_string.
  - intros (ct & bt & ws & G & ->). destruct b as [s0 xs]. cbn [snd] in *.
    assert (General : match ws with [w] => n_shape w <> 1 /\ (string = true -> n_shape w <> 2) | _ => True end ->
      same_text (if string then part else fun v => v) (evaluate_node ct bt ws) (code_meaning after meaning l (s0, xs))).
    { intros N. destruct (code_stands l (s0, xs) ct bt ws G) as [S P]; [destruct ws as [|w [|? ?]]; try exact I; apply N|].
      split; [|rewrite evstr_text; destruct ws as [|w [|w2 ws]]; [reflexivity|rewrite P; reflexivity|destruct w; reflexivity]].
      destruct string; [|exact S]. destruct ws as [|w [|w2 ws]]; [rewrite P; exact S| |rewrite P; exact S].
      rewrite P, part_other by (apply N; reflexivity). rewrite <- P. exact S. }
    destruct xs as [|[x s] [|x2 xs]]; cbn [goods fst] in G; destruct ws as [|w ws]; try contradiction.
    + apply General. exact I.
    + destruct G as [G Gs]. destruct ws as [|? ?]; [|contradiction Gs]. pose proof (g_shape _ _ _ G) as Sh. unfold shape in Sh.
      destruct (plain_string x) eqn:Ep.
      * destruct (shape_one w Sh) as (t1 & s1 & ->). cbn [evaluate_node]. pose proof (g_stands _ _ _ G) as S.
        split; [destruct string; exact S|]. rewrite <- (stands_one _ _ _ (stands_string t1 s1) S). reflexivity.
      * destruct (only_code x) eqn:Eo; [destruct string; cbn [andb]|rewrite andb_false_r].
        -- destruct (shape_two w Sh) as (t1 & t2 & y & ->). cbn [evaluate_node]. split; [|rewrite inner_text by exact Eo; reflexivity].
           cbn [part]. exact (inner_code_ok _ _ _ _ _ G).
        -- apply General. rewrite Sh. split; discriminate.
        -- apply General. rewrite Sh. destruct (rescued x); split; discriminate.
    + destruct G as [_ G]. destruct ws as [|w2 ws]; [contradiction|]. apply General. exact I.
Qed.
Lemma pieces_part (string : bool) ps : forall l vs, piece_nodes l ps vs ->
  Forall2 (same_text (if string then part else fun v => v)) vs
    (map_all (piece_after after) (piece_meaning after meaning string plain_string only_code inner_code) l ps).
Proof.
  induction ps as [|p ps IH]; intros l [|v vs]; cbn [piece_nodes map_all]; try contradiction; [constructor|].
  intros [G H]. constructor; [apply piece_part; exact G|apply IH; exact H].
Qed.

(** ** Running the parser *)
Section Quoted.
Variable m : nat.
Hypothesis IH : Main m.
Notation E := (parse_expression m).
Notation F := (m + m + 2)%nat.

Lemma code_loop c : ty c = T_EvaluateToStringEnd ->
  forall xs k acc a r ps d0 d l f, (length (stm_text xs) < m)%nat -> statements_fit after fits false returns l xs = true ->
  (existsb (fun x => shallow (fst x)) xs = true -> d0 = 0) -> (length xs < k)%nat ->
  exists vs, goods fst l xs vs /\
    mloop k (fun acc =>
       b <- cur_is T_EvaluateToStringEnd ;;
       if b then ret (inr acc)
       else
         e <- pexpr E LOWEST ;;
         skip_newlines ;;;
         ret (inl (acc ++ [e]))) acc (PState a (stm_text xs ++ c :: r) ps (d0 :: d) l f) =
    POk (acc ++ vs) (PState (rev (stm_text xs) ++ a) (c :: r) ps (d0 :: d) (stm_after l xs) f).
Proof.
  intros Ec. assert (Cc : closer c = true) by (unfold closer; rewrite Ec; reflexivity).
  assert (Lc : is_end_of_line (ty c) = false) by (rewrite Ec; reflexivity).
  induction xs as [|[e s] xs IHx]; intros k acc a r ps d0 d l f Hm Hf Hd Hk.
  - exists []. split; [exact I|]. destruct k as [|k]; [exfalso; clear - Hk; cbn in Hk; lia|]. apply loop_done. cbn [stm_text flat_map app rev].
    run1. rewrite Ec. rewrite app_nil_r. reflexivity.
  - destruct k as [|k]; [exfalso; clear - Hk; cbn in Hk; lia|]. cbn [length] in Hk.
    apply statements_cons in Hf as (Hfe & Hs & Hl & Hx). cbn [existsb fst] in Hd.
    cbn [stm_text flat_map fst snd] in Hm |- *. rewrite !app_length in Hm.
    change (flat_map (fun x => text (fst x) ++ snd x) xs) with (stm_text xs) in *.
    assert (Lm : (length (text e) < m)%nat) by (clear - Hm; lia).
    assert (Lx : (length (stm_text xs) < m)%nat) by (clear - Hm; lia).
    assert (Lk : (length xs < k)%nat) by (clear - Hk; lia). clear Hm.
    pose proof (starts_head l e Hfe) as St.
    assert (W := starts_not T_EvaluateToStringEnd _ eq_refl St).
    assert (Hde : shallow e = true -> d0 = 0) by (intros X; apply Hd; rewrite X; reflexivity).
    assert (Hdx : existsb (fun x => shallow (fst x)) xs = true -> d0 = 0) by (intros X; apply Hd; rewrite X, orb_true_r; reflexivity).
    assert (V : exists v, good l e v /\
      pexpr E LOWEST (PState a (text e ++ s ++ stm_text xs ++ c :: r) ps (d0 :: d) l f) =
      POk v (PState (rev (text e) ++ a) (s ++ stm_text xs ++ c :: r) ps (d0 :: d) (after l e) f)).
    { destruct s as [|x s].
      - destruct (Hl eq_refl) as (Hr & _ & ->). cbn [app stm_text flat_map].
        apply (statement_ok m IH); try assumption. intros X. rewrite X in Hr. discriminate Hr.
      - assert (Cx : separator x = true) by (cbn [forallb] in Hs; bools; assumption). cbn [app].
        apply (statement_ok m IH); try assumption; [apply separator_closer; exact Cx|]. intros _. apply separator_end. exact Cx. }
    destruct V as (v & G & V).
    destruct (IHx k (acc ++ [v]) (rev s ++ rev (text e) ++ a) r ps d0 d (after l e) f Lx Hx Hdx Lk) as (vs & Gs & R).
    exists (v :: vs). split; [split; assumption|].
    rewrite (loop_step k _ acc _ (acc ++ [v])
      (PState (rev s ++ rev (text e) ++ a) (stm_text xs ++ c :: r) ps (d0 :: d) (after l e) f)).
    + etransitivity; [exact R|]. f_equal; [rewrite <- app_assoc; reflexivity|].
      f_equal. rewrite !rev_app_distr, <- !app_assoc. reflexivity.
    + rewrite <- ?app_assoc. run1. rewrite W. rewrite (bind_ok _ _ _ _ _ V).
      rewrite run_skip; [reflexivity|exact Hs|eapply stm_line; eassumption].
Qed.

Definition pieces_text (ps : list (piece rb)) : list token := flat_map (piece_text text) ps.
Definition pieces_fit (l : list str) (ps : list (piece rb)) : Prop :=
  forallb (fun b => b) (map_all (piece_after after) (piece_fits after fits returns) l ps) = true.
Lemma pieces_loop nt et c : ty c = et -> (et = T_InterpolatedStringEnd \/ et = T_InterpolatedSymbolEnd \/ et = T_InterpolatedShellEnd) ->
  forall xs k acc a r ps d0 d l f, (length (pieces_text xs) < m)%nat -> pieces_fit l xs ->
  (existsb (piece_shallow shallow) xs = true -> d0 = 0) -> (length xs < k)%nat ->
  exists vs, piece_nodes l xs vs /\
    mloop k
    (fun acc =>
       t <- cur ;;
       if is_valid (ty t) && negb (ttype_eqb (ty t) et) then
         match ty t with
         | T_EvaluateToStringBegin =>
             advance ;;;
             skip_newlines ;;;
             bt <- cur ;;
             nodes <-
               mloop F
                 (fun acc =>
                    b <- cur_is T_EvaluateToStringEnd ;;
                    if b then ret (inr acc)
                    else
                      e <- pexpr E LOWEST ;;
                      skip_newlines ;;;
                      ret (inl (acc ++ [e]))) [] ;;
             advance ;;;
             ct <- cur ;;
             ret (inl (acc ++ [evaluate_node ct bt nodes]))
         | T_String =>
             l <- literal_string t ;;
             advance ;;;
             ret (inl (acc ++ [N_String t l]))
         | _ => crash (PUnreachable "parser.cpp:1543")
         end
       else if negb (ttype_eqb (ty t) et) then
         match ty t with
         | T_UnterminatedRegexp | T_UnterminatedString | T_UnterminatedWordArray =>
             throw_unterminated_thing nt no_token
         | _ => crash (PUnreachable "parser.cpp:1555")
         end
       else ret (inr acc)) acc (PState a (pieces_text xs ++ c :: r) ps (d0 :: d) l f) =
    POk (acc ++ vs) (PState (rev (pieces_text xs) ++ a) (c :: r) ps (d0 :: d) (after_all (piece_after after) l xs) f).
Proof.
  intros Ec Het. induction xs as [|x xs IHx]; intros k acc a r ps d0 d l f Hm Hf Hd Hk.
  - exists []. split; [exact I|]. destruct k as [|k]; [exfalso; clear - Hk; cbn in Hk; lia|]. apply loop_done. cbn [pieces_text flat_map app rev].
    run1. rewrite Ec, eqb_same, andb_false_r. rewrite app_nil_r. reflexivity.
  - destruct k as [|k]; [exfalso; clear - Hk; cbn in Hk; lia|]. cbn [length] in Hk.
    unfold pieces_fit in Hf. cbn [map_all forallb] in Hf. apply andb_true_iff in Hf as [Hf Hx]. cbn [existsb] in Hd.
    cbn [pieces_text flat_map] in Hm |- *. rewrite app_length in Hm.
    change (flat_map (piece_text text) xs) with (pieces_text xs) in *.
    assert (Lx : (length (pieces_text xs) < m)%nat) by (clear - Hm; lia).
    assert (Lk : (length xs < k)%nat) by (clear - Hk; lia).
    assert (Hdx : existsb (piece_shallow shallow) xs = true -> d0 = 0) by (intros X; apply Hd; rewrite X, orb_true_r; reflexivity).
    assert (Hde : piece_shallow shallow x = true -> d0 = 0) by (intros X; apply Hd; rewrite X; reflexivity). clear Hd.
    rewrite <- app_assoc. destruct x as [t|o b e]; cbn [piece_fits piece_text piece_shallow piece_after] in *.
    + apply andb_true_iff in Hf as [Tt Lt]. apply is_a_ty in Tt. destruct (lit t) as [s|] eqn:El; [|discriminate Lt].
      destruct (IHx k (acc ++ [N_String t s]) (t :: a) r ps d0 d l f Lx Hx Hdx Lk) as (vs & G & R).
      exists (N_String t s :: vs). split; [split; [cbn; unfold name; rewrite El; reflexivity|exact G]|].
      erewrite loop_step.
      * etransitivity; [exact R|]. f_equal; [rewrite <- app_assoc; reflexivity|]. f_equal. rewrite rev_app_distr, <- app_assoc. reflexivity.
      * cbn [app]. run1. rewrite (eqb_diff (ty t) et) by (rewrite Tt; destruct Het as [->|[->| ->]]; discriminate). rewrite Tt. change (is_valid T_String && negb false) with true. cbv iota.
        unfold literal_string. rewrite El. run1. run1. reflexivity.
    + apply andb_true_iff in Hf as [Hf Hb]. apply andb_true_iff in Hf as [To Te]. apply is_a_ty in To, Te. unfold body_fits in Hb.
      apply andb_true_iff in Hb as [Hs Hb]. destruct b as [s ys]. cbn [fst snd] in *. unfold body_shallow in Hde. cbn [snd] in Hde.
      unfold body_text in *. cbn [fst snd] in *. change (flat_map (fun x => text (fst x) ++ snd x) ys) with (stm_text ys) in *.
      cbn [length] in Hm. rewrite !app_length in Hm. cbn [length] in Hm. pose proof (stm_count ys) as Hc.
      destruct (code_loop e Te ys F [] (rev s ++ o :: a) (pieces_text xs ++ c :: r) ps d0 d l f ltac:(clear - Hm; lia) Hb Hde ltac:(clear - Hm Hc; lia)) as (ws & Gw & W).
      set (bt := hd no_token (stm_text ys ++ e :: pieces_text xs ++ c :: r)).
      set (ct := hd no_token (pieces_text xs ++ c :: r)).
      destruct (IHx k (acc ++ [evaluate_node ct bt ws]) (e :: rev (stm_text ys) ++ rev s ++ o :: a) r ps d0 d (stm_after l ys) f Lx Hx Hdx Lk) as (vs & G & R).
      exists (evaluate_node ct bt ws :: vs). split; [split; [exists ct, bt, ws; split; [exact Gw|reflexivity]|exact G]|].
      erewrite loop_step.
      * etransitivity; [exact R|]. f_equal; [rewrite <- app_assoc; reflexivity|]. f_equal.
        cbn [app rev]. rewrite !rev_app_distr, <- !app_assoc. cbn [rev app]. rewrite <- ?app_assoc. reflexivity.
      * cbn [app]. run1. rewrite (eqb_diff (ty o) et) by (rewrite To; destruct Het as [->|[->| ->]]; discriminate). rewrite To. change (is_valid T_EvaluateToStringBegin && negb false) with true. cbv iota.
        run1. rewrite <- !app_assoc. cbn [app].
        rewrite run_skip; [|exact Hs|eapply stm_line; [exact Hb|rewrite Te; reflexivity]].
        change (bind cur ?h (PState (rev s ++ o :: a) (stm_text ys ++ e :: pieces_text xs ++ c :: r) ps (d0 :: d) l f))
          with (h bt (PState (rev s ++ o :: a) (stm_text ys ++ e :: pieces_text xs ++ c :: r) ps (d0 :: d) l f)). cbv beta.
        rewrite (bind_ok _ _ _ _ _ W). run1. reflexivity.
Qed.

Lemma quote_cases t : is_quote t = true -> t = T_InterpolatedStringBegin \/ t = T_InterpolatedSymbolBegin \/ t = T_InterpolatedShellBegin.
Proof. destruct t; try discriminate; auto. Qed.

Lemma run_finish s a u r ps d l f : okf u = true ->
  finish_string F (next_string E F F) s (PState a (u :: r) ps d l f) = POk s (PState a (u :: r) ps d l f).
Proof.
  intros Ku. unfold finish_string. run1.
  assert (X : (match ps with
     | [] => concat_adjacent_strings F (next_string E F F) s
     | p :: _ => if negb (p =? WORD_ARRAY) then concat_adjacent_strings F (next_string E F F) s else ret (s, false)
     end) (PState a (u :: r) ps d l f) = POk (s, false) (PState a (u :: r) ps d l f)).
  { assert (Y : concat_adjacent_strings F (next_string E F F) s (PState a (u :: r) ps d l f) = POk (s, false) (PState a (u :: r) ps d l f)).
    { unfold concat_adjacent_strings. rewrite Nat.add_comm. cbn [Nat.add]. apply loop_done. run1.
      apply andb_true_iff in Ku as [Ku _]. destruct (ty u); discriminate Ku || reflexivity. }
    destruct ps as [|p ps]; [exact Y|]. destruct (p =? WORD_ARRAY); [reflexivity|exact Y]. }
  rewrite (bind_ok _ _ _ _ _ X). cbv beta iota. run1. rewrite (okf_not T_InterpolatedStringSymbolKey u eq_refl Ku). reflexivity.
Qed.

(** The tokens between the quotes, as the parsers of the literals look at them. *)
Lemma pieces_count xs : (length xs <= length (pieces_text xs))%nat.
Proof.
  induction xs as [|x xs IHx]; [cbn; lia|]. cbn [pieces_text flat_map length]. rewrite app_length. unfold pieces_text in IHx.
  destruct x; cbn [piece_text length]; lia.
Qed.
Lemma pieces_body nt et c : ty c = et -> (et = T_InterpolatedStringEnd \/ et = T_InterpolatedSymbolEnd \/ et = T_InterpolatedShellEnd) ->
  forall xs a r (ps : list N) d0 d l f, (length (pieces_text xs) < m)%nat -> pieces_fit l xs ->
  (existsb (piece_shallow shallow) xs = true -> d0 = 0) ->
  exists vs, piece_nodes l xs vs /\
    parse_interpolated_body E F nt et (PState a (pieces_text xs ++ c :: r) ps (d0 :: d) l f) =
    POk vs (PState (rev (pieces_text xs) ++ a) (c :: r) ps (d0 :: d) (after_all (piece_after after) l xs) f).
Proof.
  intros Ec Het xs a r ps d0 d l f Hm Hf Hd. pose proof (pieces_count xs).
  exact (pieces_loop nt et c Ec Het xs F [] a r ps d0 d l f Hm Hf Hd ltac:(lia)).
Qed.
Lemma only_text_none l xs c r et : only_text xs = None -> pieces_fit l xs -> ty c = et ->
  (et = T_InterpolatedStringEnd \/ et = T_InterpolatedSymbolEnd \/ et = T_InterpolatedShellEnd) ->
  exists t w, pieces_text xs ++ c :: r = t :: w /\ ttype_eqb (ty t) et = false /\
    ttype_eqb (ty t) T_String && ttype_eqb (ty (hd no_token w)) et = false.
Proof.
  intros N Hf Ec Het. destruct xs as [|x xs]; [discriminate N|].
  assert (T : forall p l, piece_fits after fits returns l p = true -> exists t w, piece_text text p = t :: w /\ ttype_eqb (ty t) et = false /\
    match p with S_text _ => w = [] /\ ty t = T_String | S_code _ _ _ => ty t = T_EvaluateToStringBegin end).
  { intros [t|o b e] l' H; cbn [piece_fits piece_text] in *.
    - apply andb_true_iff in H as [H _]. apply is_a_ty in H. exists t, []. split; [reflexivity|]. split; [|split; [reflexivity|exact H]].
      apply eqb_diff. rewrite H. destruct Het as [->|[->| ->]]; discriminate.
    - apply andb_true_iff in H as [H _]. apply andb_true_iff in H as [H _]. apply is_a_ty in H. eexists; eexists. split; [reflexivity|]. split; [|exact H].
      apply eqb_diff. rewrite H. destruct Het as [->|[->| ->]]; discriminate. }
  unfold pieces_fit in Hf. cbn [map_all forallb] in Hf. apply andb_true_iff in Hf as [Hf Hx].
  destruct (T x l Hf) as (t & w & E1 & E2 & E3). cbn [pieces_text flat_map]. rewrite E1. cbn [app]. do 2 eexists. split; [reflexivity|]. split; [exact E2|].
  destruct x as [t1|o b e]; [|rewrite E3; reflexivity]. destruct E3 as [-> E3].
  destruct xs as [|y ys]; [discriminate N|]. cbn [map_all forallb] in Hx. apply andb_true_iff in Hx as [Hy _].
  destruct (T y _ Hy) as (t2 & w2 & F1 & F2 & _). cbn [app flat_map]. rewrite F1. cbn [app hd]. rewrite F2, andb_false_r. reflexivity.
Qed.
End Quoted.

(** ** Quoted literals *)
Definition quoted_node (o : token) (ps : list (piece rb)) (vs : list node) : node :=
  match ty o with
  | T_InterpolatedSymbolBegin => match only_text ps with Some s => N_Symbol o s | None => N_InterpolatedSymbol o vs end
  | T_InterpolatedShellBegin => match only_text ps with Some s => N_Shell o s | None => N_InterpolatedShell o vs end
  | _ => match only_text ps with Some s => N_String o s | None => N_InterpolatedString o vs end
  end.
Lemma piece_shape l ps vs : piece_nodes l ps vs ->
  match vs with [N_EvaluateToString _ _] => true | _ => false end =
  match ps with [S_code _ b _] => match snd b with [(x, _)] => negb (plain_string x) | _ => true end | _ => false end.
Proof.
  destruct ps as [|p [|p2 ps]]; destruct vs as [|v [|v2 vs]]; cbn [piece_nodes]; try tauto.
  - intros [H _]. destruct p as [t|o b c]; [rewrite H; reflexivity|]. destruct H as (ct & bt & ws & G & ->).
    destruct (snd b) as [|[x s] [|x2 xs]]; cbn [goods fst] in G; destruct ws as [|w ws]; try contradiction; [reflexivity| |].
    + destruct G as [G Gs]. destruct ws; [|contradiction]. pose proof (g_shape _ _ _ G) as S. unfold shape in S.
      destruct (plain_string x); [destruct (shape_one w S) as (? & ? & ->); reflexivity|].
      rewrite evaluate_one; [reflexivity|]. rewrite S. destruct (only_code x), (rescued x); discriminate.
    + destruct G as [_ G]. destruct ws; [contradiction|]. destruct w; reflexivity.
  - intros _. destruct p, v; reflexivity.
Qed.
Lemma only_text_some l ps vs : piece_nodes l ps vs -> only_text ps = None -> vs <> [].
Proof. destruct ps; [discriminate|]. destruct vs; cbn; [tauto|discriminate]. Qed.
Lemma string_of_text l ps s : only_text ps = Some s ->
  string_meaning (map_all (piece_after after) (piece_meaning after meaning true plain_string only_code inner_code) l ps) = sx "str" [SStr s].
Proof. destruct ps as [|[t|o b c] [|p ps]]; try discriminate; intros H; injection H as <-; reflexivity. Qed.

Lemma quoted_good l o ps c vs : is_quote (ty o) = true -> piece_nodes l ps vs -> good l (R_quoted o ps c) (quoted_node o ps vs).
Proof.
  intros Q N.
  assert (I1 : forall tag ms, (tag = "dsym" \/ tag = "dxstr")%string -> integer (interpolated tag ms) = None).
  { intros tag [|v ms] H; [|rewrite interpolated_text; destruct (sexp_text v)]; apply integer_tag; destruct H as [->| ->]; reflexivity. }
  assert (I2 : forall ms, integer (string_meaning ms) = None).
  { intros ms. unfold string_meaning. destruct (leading [] ms) as [s [|? ?]]; apply integer_tag; reflexivity. }
  unfold quoted_node. destruct (quote_cases _ Q) as [T|[T|T]]; rewrite T; destruct (only_text ps) as [s|] eqn:Eo;
    constructor; try reflexivity; try exact I; try discriminate; cbn [meaning]; unfold quoted_meaning; rewrite ?T, ?Eo.
  - rewrite (string_of_text l ps s Eo). apply stands_string.
  - symmetry. apply I2.
  - unfold shape. cbn [plain_string only_code]. rewrite T, Eo. reflexivity.
  - apply stands_dstr; [eapply only_text_some; eassumption|]. apply (pieces_part true). exact N.
  - symmetry. apply I2.
  - unfold shape. cbn [plain_string only_code]. rewrite T, Eo. change (ttype_eqb T_InterpolatedStringBegin T_InterpolatedStringBegin) with true. cbn [andb].
    pose proof (piece_shape l ps vs N) as S.
    replace (match ps with [S_code _ b _] => match snd b with [(x, _)] => negb (plain_string x) | _ => true end | _ => false end)
      with (match vs with [N_EvaluateToString _ _] => true | _ => false end).
    destruct vs as [|v [|? ?]]; [reflexivity| |destruct v; reflexivity]. destruct v; reflexivity.
  - destruct vs as [|v [|? ?]]; [exact I| |destruct v; exact I]. destruct v; try exact I.
    destruct ps as [|p [|? ?]]; cbn [piece_nodes] in N; try tauto. destruct N as [N _]. destruct p as [t1|o1 b c1]; [discriminate N|].
    destruct N as (ct & bt & ws & G & Ev). cbn [inner_code]. rewrite Ev. apply code_stands; [exact G|].
    destruct ws as [|w [|? ?]]; try exact I. intros S. destruct (shape_one w S) as (? & ? & ->). discriminate Ev.
  - apply stands_symbol.
  - reflexivity.
  - unfold shape. cbn [plain_string only_code]. rewrite T. destruct ps as [|[] []]; reflexivity.
  - eapply (stands_interpolated "dsym"); [discriminate|apply tr_dsym|left; reflexivity|eapply only_text_some; eassumption|]. apply (pieces_part false). exact N.
  - symmetry. apply I1. left. reflexivity.
  - unfold shape. cbn [plain_string only_code]. rewrite T. destruct ps as [|[] []]; reflexivity.
  - apply stands_shell.
  - reflexivity.
  - unfold shape. cbn [plain_string only_code]. rewrite T. destruct ps as [|[] []]; reflexivity.
  - eapply (stands_interpolated "dxstr"); [discriminate|apply tr_dxstr|right; reflexivity|eapply only_text_some; eassumption|]. apply (pieces_part false). exact N.
  - symmetry. apply I1. right. reflexivity.
  - unfold shape. cbn [plain_string only_code]. rewrite T. destruct ps as [|[] []]; reflexivity.
Qed.

Section Literals.
Variable m : nat.
Hypothesis IH : Main m.
Notation E := (parse_expression m).
Notation F := (m + m + 2)%nat.

Lemma spine_quoted o xs c : Spine m (R_quoted o xs c).
Proof.
  intros p ia u r a ps d0 d l f Hm K. pose proof (f_fits _ _ _ _ _ _ K) as Hf. pose proof (f_tok _ _ _ _ _ _ K) as Ku. cbn [fits] in Hf.
  apply andb_true_iff in Hf as [Hf Fx]. apply andb_true_iff in Hf as [Q Tc]. apply is_a_ty in Tc.
  cbn [text] in Hm. cbn [length] in Hm. rewrite app_length in Hm. cbn [length] in Hm. change (flat_map (piece_text text) xs) with (pieces_text xs) in Hm.
  assert (Hd : existsb (piece_shallow shallow) xs = true -> d0 = 0) by (intros X; apply (f_shallow _ _ _ _ _ _ K); exact X).
  assert (Het : quote_end (ty o) = T_InterpolatedStringEnd \/ quote_end (ty o) = T_InterpolatedSymbolEnd \/ quote_end (ty o) = T_InterpolatedShellEnd)
    by (destruct (quote_cases _ Q) as [T|[T|T]]; rewrite T; auto).
  destruct (pieces_body m IH o (quote_end (ty o)) c Tc Het xs (o :: a) (u :: r) (p :: ps) d0 d l f ltac:(clear - Hm; lia) Fx Hd) as (vs & Gn & V).
  exists (quoted_node o xs vs), 0%nat. split; [apply quoted_good; assumption|]. split; [apply Nat.le_0_l|].
  set (X := fun (mk : list node -> node) (sg : str -> node) =>
    x <- cur ;; y <- peek ;;
      (if ttype_eqb (ty x) (quote_end (ty o)) then advance ;;; ret (sg [])
       else if ttype_eqb (ty x) T_String && ttype_eqb (ty y) (quote_end (ty o)) then
         s <- literal_string x ;; advance ;;; advance ;;; ret (sg s)
       else ns <- parse_interpolated_body E F o (quote_end (ty o)) ;; advance ;;; ret (mk ns))).
  assert (S : forall mk sg, X mk sg (PState (o :: a) (pieces_text xs ++ c :: u :: r) (p :: ps) (d0 :: d) l f) =
    POk (match only_text xs with Some s => sg s | None => mk vs end)
      (PState (rev (text (R_quoted o xs c)) ++ a) (u :: r) (p :: ps) (d0 :: d) (after l (R_quoted o xs c)) f)).
  { intros mk sg. unfold X. cbn [text after rev]. change (flat_map (piece_text text) xs) with (pieces_text xs).
    destruct (only_text xs) as [s|] eqn:Eo.
    - destruct xs as [|[t|o1 b1 c1] [|? ?]]; try discriminate Eo; injection Eo as <-.
      + cbn [pieces_text flat_map app rev]. run1. run1. rewrite Tc, eqb_same. run1. reflexivity.
      + unfold pieces_fit in Fx. cbn [map_all forallb piece_fits] in Fx. apply andb_true_iff in Fx as [Fx _]. apply andb_true_iff in Fx as [Tt Lt]. apply is_a_ty in Tt.
        destruct (lit t) as [s|] eqn:El; [|discriminate Lt].
        cbn [pieces_text flat_map piece_text app rev]. run1. run1. rewrite (eqb_diff (ty t)) by (rewrite Tt; destruct Het as [->|[->| ->]]; discriminate).
        cbn [hd]. rewrite Tt, Tc, !eqb_same. cbn [andb]. unfold literal_string. rewrite El. run1. run1. run1.
        unfold name. rewrite El. reflexivity.
    - destruct (only_text_none l xs c (u :: r) _ Eo Fx Tc Het) as (t & w & Ew & T1 & T2). rewrite Ew in V |- *. run1. run1. rewrite T1, T2.
      rewrite (bind_ok _ _ _ _ _ V). run1. rewrite rev_app_distr. cbn [rev app]. rewrite <- app_assoc. reflexivity. }
  cbn [text] in *. change (flat_map (piece_text text) xs) with (pieces_text xs) in *.
  destruct (quote_cases _ Q) as [T|[T|T]]; unfold X in S; rewrite T in S; cbn [quote_end] in S; unfold quoted_node; rewrite T; clear X.
  - refine (reach_null m p ia a _ (p :: ps) (d0 :: d) l f (parse_interpolated_string E F) _ _ _ _); cbn [app hd]; [rewrite T; reflexivity|].
    specialize (S (N_InterpolatedString o) (N_String o)).
    unfold parse_interpolated_string, parse_interpolated_string_with. run1. run1. rewrite <- app_assoc. cbn [app].
    etransitivity; [exact (bind_ok _ (fun s => finish_string F (next_string E F F) s) _ _ _ S)|]. apply run_finish. exact Ku.
  - refine (reach_null m p ia a _ (p :: ps) (d0 :: d) l f (parse_interpolated_symbol E F) _ _ _ _); cbn [app hd]; [rewrite T; reflexivity|].
    specialize (S (N_InterpolatedSymbol o) (N_Symbol o)). unfold parse_interpolated_symbol. run1. run1. rewrite <- app_assoc. cbn [app]. exact S.
  - refine (reach_null m p ia a _ (p :: ps) (d0 :: d) l f (parse_interpolated_shell E F) _ _ _ _); cbn [app hd]; [rewrite T; reflexivity|].
    specialize (S (N_InterpolatedShell o) (N_Shell o)). unfold parse_interpolated_shell. run1. run1. rewrite <- app_assoc. cbn [app]. exact S.
Qed.
End Literals.

(** * LexShift: the lexer looks only ahead

    A lexer standing behind a prefix [pre] does what it would do without the prefix,
    but for the places of the tokens. *)
From Coq Require Import Strings.String NArith ZArith Bool Arith List Lia ZifyBool ZifyNat ZifyN.
From Verif Require Import Base Token Spec LexModel LexBasics.
Import ListNotations.
Open Scope N_scope.

Definition mapr {A B} (g : A -> B) (r : res A) : res B :=
  match r with Ok a => Ok (g a) | Crash c => Crash c | NoFuel => NoFuel end.
Lemma mapr_if {A B} (g : A -> B) (b : bool) x y : mapr g (if b then x else y) = if b then mapr g x else mapr g y.
Proof. destruct b; reflexivity. Qed.

Section shift.
Variables (pre : str) (dl dc : nat) (wsf : bool -> bool) (lf : ttype -> ttype).

Definition scol (l c : nat) : nat := if (l =? 0)%nat then (dc + c)%nat else c.
Definition scur (c : cursor) : cursor := Cur (length pre + c_idx c) (dl + c_line c) (scol (c_line c) (c_col c)).
Definition kind_only (t : token) : token := Tok (lf (ty t)) None None 0 [] 0 0 false.
Definition sh (f : lx) : lx :=
  Lx (pre ++ l_input f) (length pre + l_size f) (scur (l_cur f)) (map (plus (length pre)) (l_heredocs f))
     (dl + l_tline f) (scol (l_tline f) (l_tcol f)) (wsf (l_ws f)) (kind_only (l_last f))
     (l_ternary f) (l_stop f) (l_start f) (l_depth f) (l_names f).
Definition sht (t : token) : token :=
  Tok (ty t) (lit t) (doc t) (fix_ t) (dbl t) (dl + tk_line t) (scol (tk_line t) (tk_col t)) (wsf (tk_ws t)).
Definition sp {A} (p : A * lx) : A * lx := (fst p, sh (snd p)).
Definition st (p : token * lx) : token * lx := (sht (fst p), sh (snd p)).
(** A freshly made nested lexer: on the same text, or on a heredoc's. *)
Definition shn (l : lexer) : lexer :=
  match l with
  | Lexer f k n => Lexer (if alters_parent l then sh f else set_cur f (Cur (l_idx f) (dl + c_line (l_cur f)) (c_col (l_cur f)))) k n
  end.
Definition sb (p : bres) : bres := let '(t, f, n) := p in (sht t, sh f, option_map shn n).
Definition sk (p : kres) : kres := let '(t, f, k, n) := p in (sht t, sh f, k, option_map shn n).

(** ** Reading and moving *)

Lemma leb_plus n a b : (n + a <=? n + b)%nat = (a <=? b)%nat.
Proof. destruct (Nat.leb_spec (n + a) (n + b)), (Nat.leb_spec a b); try reflexivity; lia. Qed.
Lemma ltb_plus n a b : (n + a <? n + b)%nat = (a <? b)%nat.
Proof. destruct (Nat.ltb_spec (n + a) (n + b)), (Nat.ltb_spec a b); try reflexivity; lia. Qed.
Lemma at_pre s i : at_ (pre ++ s) (length pre + i) = at_ s i.
Proof. unfold at_. rewrite app_nth2 by lia. f_equal. lia. Qed.

Lemma sh_cur f : current_char (sh f) = current_char f.
Proof. unfold current_char, sh. cbn [l_size l_cur l_input scur c_idx]. rewrite leb_plus, at_pre. reflexivity. Qed.
Lemma sh_peek f : peek (sh f) = peek f.
Proof.
  unfold peek, sh. cbn [l_size l_cur l_input scur c_idx]. rewrite <- Nat.add_assoc, leb_plus, at_pre. reflexivity.
Qed.
Lemma sh_setcur f c : set_cur (sh f) (scur c) = sh (set_cur f c).
Proof. reflexivity. Qed.
Lemma sh_advance f : advance (sh f) = sh (advance f).
Proof.
  unfold advance. rewrite sh_cur, <- sh_setcur. f_equal. unfold scur, scol, sh.
  destruct (current_char f =? ch_nl); cbn [l_cur c_idx c_line c_col scur].
  - f_equal; lia.
  - f_equal; try lia. unfold scol. destruct (c_line (l_cur f) =? 0)%nat; lia.
Qed.
Lemma sh_advance_n n f : advance_n n (sh f) = sh (advance_n n f).
Proof. revert f. induction n as [|n IH]; intros f; [reflexivity|]. cbn [advance_n]. rewrite sh_advance. apply IH. Qed.
Lemma sh_if (b : bool) f g : (if b then sh f else sh g) = sh (if b then f else g).
Proof. destruct b; reflexivity. Qed.
Lemma sh_fuel f : loop_fuel (sh f) = loop_fuel f.
Proof. unfold loop_fuel, sh. cbn [l_size l_cur scur c_idx]. do 2 f_equal. lia. Qed.
Lemma sh_match f s : match_ (sh f) s = option_map sh (match_ f s).
Proof.
  unfold match_. cbv zeta. change (l_size (sh f)) with (length pre + l_size f)%nat.
  change (l_idx (sh f)) with (length pre + l_idx f)%nat. change (l_input (sh f)) with (pre ++ l_input f).
  rewrite <- Nat.add_assoc, !ltb_plus, at_pre.
  replace (skipn (length pre + l_idx f) (pre ++ l_input f)) with (skipn (l_idx f) (l_input f)).
  2: { rewrite skipn_app, (skipn_all2 pre) by lia. cbn [app]. f_equal. lia. }
  destruct (_ <? _)%nat; [reflexivity|]. destruct (str_eqb _ _); [|reflexivity].
  destruct (_ && _); [reflexivity|]. cbn [option_map]. f_equal. apply sh_advance_n.
Qed.

Lemma sh_depth f d : set_depth (sh f) d = sh (set_depth f d).
Proof. reflexivity. Qed.
Lemma sh_ternary f d : set_ternary (sh f) d = sh (set_ternary f d).
Proof. reflexivity. Qed.
Lemma sh_stop f d : set_stop_char (sh f) d = sh (set_stop_char f d).
Proof. reflexivity. Qed.
Lemma sh_start f d : set_start_char (sh f) d = sh (set_start_char f d).
Proof. reflexivity. Qed.
Lemma sh_names f d : set_names (sh f) d = sh (set_names f d).
Proof. reflexivity. Qed.
Lemma sh_g_names f : l_names (sh f) = l_names f.
Proof. reflexivity. Qed.
Lemma sh_g_ternary f : l_ternary (sh f) = l_ternary f.
Proof. reflexivity. Qed.
Lemma sh_g_stop f : l_stop (sh f) = l_stop f.
Proof. reflexivity. Qed.
Lemma sh_g_start f : l_start (sh f) = l_start f.
Proof. reflexivity. Qed.
Lemma sh_g_depth f : l_depth (sh f) = l_depth f.
Proof. reflexivity. Qed.
Lemma sh_g_last f : ty (l_last (sh f)) = lf (ty (l_last f)).
Proof. reflexivity. Qed.
(** The beginning of the source and a line's beginning are alike, unless a method name is expected. *)
Definition same_last (f : lx) : Prop :=
  lf (ty (l_last f)) = ty (l_last f) \/
  (ty (l_last f) = T_Invalid /\ lf T_Invalid = T_Newline /\ n_rem (l_names f) = 0).
Lemma sh_first f : same_last f -> token_is_first_on_line (sh f) = token_is_first_on_line f.
Proof. unfold token_is_first_on_line. rewrite sh_g_last. intros [H|[H1 [H2 _]]]; [rewrite H|rewrite H1, H2]; reflexivity. Qed.
Lemma sh_last_test (p : ttype -> bool) f : same_last f -> p T_Newline = p T_Invalid ->
  p (lf (ty (l_last f))) = p (ty (l_last f)).
Proof. intros [H|[H1 [H2 _]]] E; [rewrite H|rewrite H1, H2]; auto. Qed.
Lemma sh_tk f t : tk (sh f) t = sht (tk f t).
Proof. reflexivity. Qed.
Lemma sh_tkl f t s : tkl (sh f) t s = sht (tkl f t s).
Proof. reflexivity. Qed.
Lemma sh_tkz f t s : tkz (sh f) t s = sht (tkz f t s).
Proof. reflexivity. Qed.
Lemma sh_tkd f t s : tkd (sh f) t s = sht (tkd f t s).
Proof. reflexivity. Qed.
Lemma sh_tkc f t : tkc (sh f) t = sht (tkc f t).
Proof. reflexivity. Qed.
Lemma sh_tkcl f t s : tkcl (sh f) t s = sht (tkcl f t s).
Proof. reflexivity. Qed.
Lemma sh_ret f t : ret (sh f) t = mapr sb (ret f t).
Proof. reflexivity. Qed.

Hint Rewrite sh_cur sh_peek sh_advance sh_advance_n sh_fuel sh_match sh_depth sh_ternary sh_stop sh_start sh_names
  sh_g_names sh_g_ternary sh_g_stop sh_g_start sh_g_depth sh_tk sh_tkl sh_tkz sh_tkd sh_tkc sh_tkcl
  sh_ret @sh_if : sh.

(** Solve [F (sh f) = mapr g (F f)] by following the tests of [F]. *)
Ltac step :=
  match goal with
  | |- ?x = ?x => reflexivity
  | |- Ok _ = mapr _ (Ok _) => reflexivity
  | |- Ok _ = Ok _ => reflexivity
  | |- Crash _ = _ => reflexivity
  | |- NoFuel = _ => reflexivity
  | |- (if ?b then _ else _) = mapr _ (if ?b then _ else _) => destruct b eqn:?
  | |- (let '(_, _) := ?x in _) = mapr _ (let '(_, _) := ?x in _) => destruct x eqn:?
  | |- match ?x with _ => _ end = mapr _ (match ?x with _ => _ end) => destruct x eqn:?
  | |- bind (mapr _ ?x) _ = mapr _ (bind ?x _) => destruct x as [[? ?]| |]; cbn [bind mapr sp st fst snd]
  | |- bind (mapr _ ?x) _ = mapr _ (bind ?x _) => destruct x as [?| |]; cbn [bind mapr]
  end.
Ltac go := cbv zeta; repeat first [ progress autorewrite with sh | step ].

(** ** Loops that end in a text and a state *)

Lemma sh_skip_ws_loop fuel : forall f b, skip_ws_loop fuel (sh f) b = mapr sp (skip_ws_loop fuel f b).
Proof. induction fuel as [|fuel IH]; intros f b; [reflexivity|]. cbn [skip_ws_loop]. go. apply IH. Qed.
Lemma sh_skip_ws f : skip_whitespace (sh f) = mapr sp (skip_whitespace f).
Proof. unfold skip_whitespace. rewrite sh_fuel. apply sh_skip_ws_loop. Qed.
Lemma sh_word_loop fuel : forall f b, word_loop fuel (sh f) b = mapr sp (word_loop fuel f b).
Proof. induction fuel as [|fuel IH]; intros f b; [reflexivity|]. cbn [word_loop]. go. apply IH. Qed.
Lemma sh_word f : consume_word (sh f) = mapr sp (consume_word f).
Proof. unfold consume_word. rewrite sh_fuel. apply sh_word_loop. Qed.
Lemma sh_word_token f t : consume_word_token (sh f) t = mapr st (consume_word_token f t).
Proof. unfold consume_word_token. rewrite sh_word. go. Qed.
Lemma sh_non_ws_loop fuel : forall f b, non_ws_loop fuel (sh f) b = mapr sp (non_ws_loop fuel f b).
Proof. induction fuel as [|fuel IH]; intros f b; [reflexivity|]. cbn [non_ws_loop]. go. apply IH. Qed.
Lemma sh_non_ws f : consume_non_whitespace (sh f) = mapr sp (consume_non_whitespace f).
Proof. unfold consume_non_whitespace. rewrite sh_fuel. apply sh_non_ws_loop. Qed.
Lemma sh_gobble b f : gobble (b, sh f) = sp (gobble (b, f)).
Proof. unfold gobble, sp. cbn [fst snd]. rewrite sh_cur, sh_advance. reflexivity. Qed.
Lemma sh_gobble_p p : gobble (sp p) = sp (gobble p).
Proof. destruct p. apply sh_gobble. Qed.
Lemma sh_snd {A} (p : A * lx) : snd (sp p) = sh (snd p).
Proof. reflexivity. Qed.
Lemma sh_fst {A} (p : A * lx) : fst (sp p) = fst p.
Proof. reflexivity. Qed.
Lemma sp_if {A} (b : bool) (p q : A * lx) : (if b then sp p else sp q) = sp (if b then p else q).
Proof. destruct b; reflexivity. Qed.
Lemma sp_pair {A} (a : A) f : (a, sh f) = sp (a, f).
Proof. reflexivity. Qed.
Lemma sh_word_loop_p fuel (p : str * lx) : word_loop fuel (snd (sp p)) (fst (sp p)) = mapr sp (word_loop fuel (snd p) (fst p)).
Proof. apply sh_word_loop. Qed.
Lemma sym_sp (p : str * lx) :
  (let (buf, f) := sp p in Ok (tkl f T_Symbol buf, f)) = mapr st (let (buf, f) := p in Ok (tkl f T_Symbol buf, f)).
Proof. destruct p. reflexivity. Qed.

Lemma sh_symbol f : consume_symbol (sh f) = mapr st (consume_symbol f).
Proof.
  unfold consume_symbol. cbv zeta. rewrite sh_cur, sh_peek.
  assert (G : gobble ([], sh f) = sp (A := str) (gobble ([], f))) by apply sh_gobble. rewrite !G.
  repeat match goal with
  | |- (if ?b then _ else _) = mapr _ (if ?b then _ else _) => destruct b eqn:?
  | |- context [gobble (?b, sh ?f)] => rewrite (sh_gobble b f)
  | |- context [gobble (sp ?p)] => rewrite (sh_gobble_p p)
  | |- context [snd (sp ?p)] => rewrite (sh_snd p)
  | |- context [fst (sp ?p)] => rewrite (sh_fst p)
  | |- context [current_char (sh ?p)] => rewrite (sh_cur p)
  | |- context [peek (sh ?p)] => rewrite (sh_peek p)
  | |- context [loop_fuel (sh ?p)] => rewrite (sh_fuel p)
  | |- context [advance (sh ?p)] => rewrite (sh_advance p)
  | |- context [word_loop ?n (sh ?p) ?b] => rewrite (sh_word_loop n p b)
  | |- context [(?a, sh ?p)] => change (a, sh p) with (sp (A := str) (a, p))
  | |- context [if ?b then sp ?p else sp ?q] => rewrite (sp_if b p q)
  | |- (let (_, _) := sp ?p in _) = _ => apply sym_sp
  | |- bind (mapr sp ?x) _ = mapr _ (bind ?x _) => destruct x; cbn [bind mapr]
  | |- Ok _ = mapr _ (Ok _) => reflexivity
  | |- Ok _ = Ok _ => reflexivity
  | |- ?x = ?x => reflexivity
  end.
Qed.
Lemma word_loop_last fuel : forall f b b' g, word_loop fuel f b = Ok (b', g) -> l_last g = l_last f /\ l_names g = l_names f.
Proof.
  induction fuel as [|fuel IH]; intros f b b' g; [discriminate|]. cbn [word_loop]. cbv zeta.
  assert (A : l_last (advance f) = l_last f /\ l_names (advance f) = l_names f) by (unfold advance; destruct (_ =? ch_nl); auto).
  destruct (is_identifier_char _); intros E.
  - apply IH in E. destruct A as [A1 A2], E as [E1 E2]. split; congruence.
  - injection E as <- <-. exact A.
Qed.
Lemma sh_bare f t : same_last f -> consume_bare_name_or_constant (sh f) t = mapr st (consume_bare_name_or_constant f t).
Proof.
  intros Hl. unfold consume_bare_name_or_constant. rewrite sh_word. destruct (consume_word f) as [[b g]| |] eqn:E; [|reflexivity..].
  cbn [bind mapr sp fst snd]. apply word_loop_last in E. destruct E as [E1 E2].
  assert (Hg : same_last g) by (unfold same_last; rewrite E1, E2; exact Hl).
  rewrite ?sh_g_last, (sh_last_test is_dot _ Hg eq_refl), (sh_last_test can_precede_symbol_key _ Hg eq_refl). go.
Qed.
Lemma sh_global f : consume_global_variable (sh f) = mapr st (consume_global_variable f).
Proof. unfold consume_global_variable. go. apply sh_word_token. Qed.
Lemma sh_fixnum f s b o : chars_to_fixnum_or_bignum_token (sh f) s b o = sht (chars_to_fixnum_or_bignum_token f s b o).
Proof. unfold chars_to_fixnum_or_bignum_token. destruct (strtoll _ _). destruct (_ || _); reflexivity. Qed.
Lemma sh_digit_loop p fuel : forall f b, digit_loop fuel p (sh f) b = mapr sp (digit_loop fuel p f b).
Proof. induction fuel as [|fuel IH]; intros f b; [reflexivity|]. cbn [digit_loop]. go; apply IH. Qed.
Lemma sh_float f s : consume_numeric_as_float (sh f) s = mapr st (consume_numeric_as_float f s).
Proof.
  unfold consume_numeric_as_float. rewrite sh_cur.
  match goal with |- bind ?x _ = mapr _ (bind ?y _) =>
    assert (A : x = mapr sp y) by (go; apply sh_digit_loop); rewrite A; destruct y as [[u g]| |] end; [|reflexivity..].
  cbn [mapr bind sp fst snd].
  go; rewrite sh_digit_loop; go.
Qed.
Lemma sh_decimal f : consume_decimal (sh f) = mapr st (consume_decimal f).
Proof.
  unfold consume_decimal. rewrite sh_fuel, sh_digit_loop. destruct (digit_loop _ _ _ _) as [[u g]| |]; [|reflexivity..].
  cbn [mapr bind sp fst snd]. go; [apply sh_float|]. rewrite sh_fixnum. reflexivity.
Qed.
Lemma sh_prefixed f s p b : consume_prefixed (sh f) s p b = mapr st (consume_prefixed f s p b).
Proof.
  unfold consume_prefixed. go. rewrite sh_digit_loop. destruct (digit_loop _ _ _ _) as [[u g]| |]; [|reflexivity..].
  cbn [mapr bind sp fst snd]. rewrite sh_fixnum. reflexivity.
Qed.
Lemma sh_numeric f : consume_numeric (sh f) = mapr st (consume_numeric f).
Proof.
  unfold consume_numeric. go; try apply sh_prefixed; try apply sh_decimal.
  rewrite sh_digit_loop. destruct (digit_loop _ _ _ _) as [[u g]| |]; [|reflexivity..].
  cbn [mapr bind sp fst snd]. rewrite sh_fixnum. reflexivity.
Qed.
Lemma sh_nth_loop fuel : forall f b, nth_ref_loop fuel (sh f) b = mapr sp (nth_ref_loop fuel f b).
Proof. induction fuel as [|fuel IH]; intros f b; [reflexivity|]. cbn [nth_ref_loop]. go; apply IH. Qed.
Lemma sh_nth f : consume_nth_ref (sh f) = mapr st (consume_nth_ref f).
Proof. unfold consume_nth_ref. go. rewrite sh_nth_loop. go. Qed.

(** ** Escapes *)

Lemma sh_hex_loop n : forall f z, hex_loop n (sh f) z = sp (hex_loop n f z).
Proof.
  induction n as [|n IH]; intros f z; cbn [hex_loop]; cbv zeta; rewrite sh_cur, sh_advance; [reflexivity|].
  rewrite sh_cur. destruct (isxdigit _); [|reflexivity]. destruct n; [reflexivity|apply IH].
Qed.
Lemma sh_hex n f : consume_hex_number n (sh f) = sp (consume_hex_number n f).
Proof. apply sh_hex_loop. Qed.
Lemma sh_oct_loop n : forall f z, oct_loop n (sh f) z = sp (oct_loop n f z).
Proof.
  induction n as [|n IH]; intros f z; cbn [oct_loop]; cbv zeta; rewrite sh_cur, sh_advance; [reflexivity|].
  rewrite sh_cur. destruct (isoctal _); [|reflexivity]. destruct n; [reflexivity|apply IH].
Qed.
Lemma sh_oct n f : consume_octal_number n (sh f) = sp (consume_octal_number n f).
Proof. apply sh_oct_loop. Qed.
Lemma sh_blanks fuel : forall f, skip_blanks fuel (sh f) = mapr sh (skip_blanks fuel f).
Proof. induction fuel as [|fuel IH]; intros f; [reflexivity|]. cbn [skip_blanks]. go. apply IH. Qed.
Lemma sh_braced fuel : forall f b, braced_unicode fuel (sh f) b = mapr sp (braced_unicode fuel f b).
Proof.
  induction fuel as [|fuel IH]; intros f b; [reflexivity|]. cbn [braced_unicode]. go.
  rewrite sh_hex. destruct (consume_hex_number 6 f) as [cp g]. cbn [sp fst snd].
  destruct (utf32_codepoint_to_utf8 cp) as [u| |]; [|reflexivity..]. cbn [bind].
  rewrite sh_fuel, sh_blanks. destruct (skip_blanks _ _) as [h| |]; [|reflexivity..]. cbn [bind mapr]. apply IH.
Qed.
Lemma sh_control b f : control_character b (sh f) = sp (control_character b f).
Proof.
  unfold control_character. cbv zeta. rewrite sh_advance, sh_cur, !sh_advance.
  rewrite sh_if. autorewrite with sh.
  match goal with |- (if ?c then _ else _) = _ => destruct c end; [|reflexivity].
  match goal with |- (if ?c then _ else _) = _ => destruct c end; [reflexivity|].
  autorewrite with sh. reflexivity.
Qed.
Lemma sh_escaped f b : consume_escaped_byte (sh f) b = mapr sp (consume_escaped_byte f b).
Proof.
  unfold consume_escaped_byte. cbv zeta. rewrite sh_cur.
  destruct (isoctal (current_char f)).
  { rewrite sh_oct. destruct (consume_octal_number 3 f). reflexivity. }
  destruct (current_char f =? "x"%ch).
  { rewrite sh_advance, sh_hex. destruct (consume_hex_number 2 _). reflexivity. }
  destruct (current_char f =? "u"%ch).
  { rewrite !sh_advance, sh_cur. destruct (_ =? "{"%ch).
    - autorewrite with sh. rewrite sh_braced. destruct (braced_unicode _ _ _) as [[[ok u] g]| |]; [|reflexivity..].
      cbn [mapr bind sp fst snd]. rewrite sh_advance. destruct ok; reflexivity.
    - rewrite sh_hex. destruct (consume_hex_number 4 _) as [cp g]. cbn [sp fst snd].
      destruct (utf32_codepoint_to_utf8 cp); reflexivity. }
  destruct (current_char f =? "a"%ch); [rewrite sh_advance; reflexivity|].
  destruct (current_char f =? "b"%ch); [rewrite sh_advance; reflexivity|].
  destruct ((current_char f =? "c"%ch) || (current_char f =? "C"%ch)).
  { rewrite sh_control. destruct (control_character false f) as [[z|] g]; cbn [sp fst snd]; [rewrite sh_advance|]; reflexivity. }
  destruct (current_char f =? "e"%ch); [rewrite sh_advance; reflexivity|].
  destruct (current_char f =? "f"%ch); [rewrite sh_advance; reflexivity|].
  destruct (current_char f =? "M"%ch).
  { rewrite !sh_advance, !sh_cur. destruct (negb _); [reflexivity|]. autorewrite with sh.
    destruct (_ && _); [|reflexivity].
    rewrite sh_control. destruct (control_character true _) as [[z|] g]; cbn [sp fst snd]; rewrite sh_advance; reflexivity. }
  repeat match goal with |- (if ?b then _ else _) = _ => destruct b; [rewrite sh_advance; reflexivity|] end.
  rewrite sh_advance. reflexivity.
Qed.

(** ** Quoted literals *)

Lemma sh_sq_loop fuel : forall f a b d buf, sq_loop fuel (sh f) a b d buf = mapr st (sq_loop fuel f a b d buf).
Proof. induction fuel as [|fuel IH]; intros f a b d buf; [reflexivity|]. cbn [sq_loop]. go; try apply IH. Qed.
Lemma sh_sq f a b : consume_single_quoted_string (sh f) a b = mapr st (consume_single_quoted_string f a b).
Proof. unfold consume_single_quoted_string. rewrite sh_fuel. apply sh_sq_loop. Qed.
Lemma sh_plain r : plain (mapr st r) = mapr sb (plain r).
Proof. destruct r as [[t f]| |]; reflexivity. Qed.
Lemma sh_dq bt et f a b : consume_double_quoted_string bt et (sh f) a b = mapr sb (consume_double_quoted_string bt et f a b).
Proof. reflexivity. Qed.
Lemma sh_regexp f a b : consume_regexp (sh f) a b = mapr sb (consume_regexp f a b).
Proof. reflexivity. Qed.
Lemma sh_array t i f a b : consume_quoted_array t i (sh f) a b = mapr sb (consume_quoted_array t i f a b).
Proof. reflexivity. Qed.
Lemma sh_psym f a b : consume_percent_symbol (sh f) a b = mapr sb (consume_percent_symbol f a b).
Proof. unfold consume_percent_symbol. rewrite sh_sq. destruct (consume_single_quoted_string f a b) as [[t g]| |]; reflexivity. Qed.
Lemma sh_percent f g l : (forall f a b, g (sh f) a b = mapr sb (g f a b)) ->
  consume_percent_string (sh f) g l = mapr sb (consume_percent_string f g l).
Proof.
  intros H. unfold consume_percent_string. rewrite sh_g_names. destruct (_ <? _); [reflexivity|].
  cbv zeta. rewrite sh_cur, sh_peek, sh_advance_n.
  repeat match goal with |- (if ?b then _ else _) = mapr _ (if ?b then _ else _) => destruct b end; try apply H; reflexivity.
Qed.

(** ** Heredocs *)

Lemma sh_heredoc_char f i : heredoc_char (sh f) (length pre + i) = heredoc_char f i.
Proof.
  unfold heredoc_char. change (l_size (sh f)) with (length pre + l_size f)%nat. change (l_input (sh f)) with (pre ++ l_input f).
  rewrite leb_plus, at_pre. reflexivity.
Qed.
Lemma sh_next_line fuel : forall f i,
  next_line_loop fuel (sh f) (length pre + i) = mapr (option_map (plus (length pre))) (next_line_loop fuel f i).
Proof.
  induction fuel as [|fuel IH]; intros f i; [reflexivity|]. cbn [next_line_loop]. rewrite sh_heredoc_char.
  change (l_size (sh f)) with (length pre + l_size f)%nat. rewrite leb_plus.
  destruct (_ =? ch_nl); [cbn; do 2 f_equal; lia|]. destruct (_ <=? _)%nat; [reflexivity|].
  rewrite <- IH. f_equal. lia.
Qed.
Definition sbody (r : str + str * nat) : str + str * nat :=
  match r with inl d => inl d | inr (d, i) => inr (d, (length pre + i)%nat) end.
Lemma sh_body fuel : forall f w name i d,
  heredoc_body_loop fuel (sh f) w name (length pre + i) d = mapr sbody (heredoc_body_loop fuel f w name i d).
Proof.
  induction fuel as [|fuel IH]; intros f w name i d; [reflexivity|]. cbn [heredoc_body_loop]. cbv zeta.
  rewrite sh_heredoc_char. change (l_size (sh f)) with (length pre + l_size f)%nat. rewrite leb_plus.
  destruct (_ <=? _)%nat; [destruct (is_valid_heredoc _ _ _); reflexivity|].
  destruct (_ && _); [cbn; do 3 f_equal; lia|]. rewrite <- IH. f_equal. lia.
Qed.
Lemma sh_name_loop fuel : forall f d b, heredoc_name_loop fuel (sh f) d b = mapr sp (heredoc_name_loop fuel f d b).
Proof. induction fuel as [|fuel IH]; intros f d b; [reflexivity|]. cbn [heredoc_name_loop]. go. apply IH. Qed.
Lemma sh_heredoc_lexer f doc et : Some (new_heredoc_lexer (sh f) doc et) = option_map shn (Some (new_heredoc_lexer f doc et)).
Proof.
  unfold new_heredoc_lexer, shn. cbn [alters_parent option_map]. do 2 f_equal. unfold sh, scur, set_cur.
  cbn [l_cur c_line c_idx c_col l_input l_size new_lx l_heredocs l_tline l_tcol l_ws l_last l_ternary l_stop l_start l_depth l_names].
  rewrite Nat.add_succ_r. reflexivity.
Qed.
Lemma sh_heredocs f i : set_heredocs (sh f) (length pre + i :: l_heredocs (sh f))%nat = sh (set_heredocs f (i :: l_heredocs f)).
Proof. reflexivity. Qed.

Lemma sh_heredoc f : consume_heredoc (sh f) = mapr sb (consume_heredoc f).
Proof.
  unfold consume_heredoc. cbv zeta. rewrite sh_cur, sh_advance, sh_if.
  set (d1 := current_char f =? "~"%ch). set (d2 := (current_char f =? "-"%ch) || d1).
  generalize (if d2 then advance f else f). clearbody d1 d2. clear f. intros f. rewrite sh_cur, sh_advance.
  match goal with |- bind ?x _ = mapr _ (bind ?y _) => assert (A : x = mapr sp y) end.
  { destruct (_ || _ || _).
    - rewrite sh_fuel, sh_name_loop. reflexivity.
    - rewrite sh_word. destruct (consume_word f) as [[w g]| |]; reflexivity. }
  rewrite A. set (sc := current_char f). clearbody sc.
  match goal with |- bind (mapr sp ?x) _ = _ => destruct x as [[[name|] g]| |] end; [|reflexivity..]. clear A f.
  cbn [bind mapr sp fst snd].
  match goal with |- bind ?x _ = mapr _ (bind ?y _) => assert (A : x = mapr (option_map (plus (length pre))) y) end.
  { change (l_heredocs (sh g)) with (map (plus (length pre)) (l_heredocs g)).
    destruct (l_heredocs g) as [|i hs]; cbn [map]; [|reflexivity].
    rewrite sh_fuel. change (l_idx (sh g)) with (length pre + l_idx g)%nat. apply sh_next_line. }
  rewrite A. match goal with |- bind (mapr _ ?x) _ = _ => destruct x as [[i|]| |] end; [|reflexivity..]. clear A.
  cbn [bind mapr option_map].
  change (l_size (sh g)) with (length pre + l_size g)%nat.
  replace (length pre + l_size g - (length pre + i))%nat with (l_size g - i)%nat by lia.
  rewrite sh_body. destruct (heredoc_body_loop _ _ _ _ _ _) as [[doc|[doc j]]| |]; [reflexivity| |reflexivity..].
  cbn [bind mapr sbody]. rewrite sh_heredocs.
  destruct (negb _); [|reflexivity]. rewrite sh_heredoc_lexer. reflexivity.
Qed.

(** ** Comments *)

Lemma advance_line f : (c_line (l_cur f) <= c_line (l_cur (advance f)))%nat.
Proof. unfold advance. destruct (_ =? ch_nl); cbn; lia. Qed.
Lemma sh_begin_doc fuel : forall f b, (dc = 0%nat \/ (0 < c_line (l_cur f))%nat) ->
  begin_doc_loop fuel (sh f) b = mapr sp (begin_doc_loop fuel f b).
Proof.
  induction fuel as [|fuel IH]; intros f b H; [reflexivity|]. cbn [begin_doc_loop]. cbv zeta.
  assert (H' : dc = 0%nat \/ (0 < c_line (l_cur (advance f)))%nat) by (pose proof (advance_line f); lia).
  rewrite sh_cur, sh_advance, sh_cur, sh_match.
  replace (c_col (l_cur (sh (advance f)))) with (c_col (l_cur (advance f))).
  2: { change (c_col (l_cur (advance f)) = scol (c_line (l_cur (advance f))) (c_col (l_cur (advance f)))).
       unfold scol. destruct (Nat.eqb_spec (c_line (l_cur (advance f))) 0); [|reflexivity]. destruct H' as [->|H']; [reflexivity|lia]. }
  destruct (_ =? 0); [reflexivity|]. destruct (_ =? 0)%nat; [|apply IH; exact H'].
  destruct (match_ (advance f) _); [reflexivity|apply IH; exact H'].
Qed.
Lemma sh_hash_doc fuel : forall f m b, hash_doc_loop fuel (sh f) m b = mapr sp (hash_doc_loop fuel f m b).
Proof. induction fuel as [|fuel IH]; intros f m b; [reflexivity|]. cbn [hash_doc_loop]. go; apply IH. Qed.
Lemma sh_comment fuel : forall f, comment_loop fuel (sh f) = mapr sh (comment_loop fuel f).
Proof. induction fuel as [|fuel IH]; intros f; [reflexivity|]. cbn [comment_loop]. go; apply IH. Qed.
Lemma sh_advance_to fuel : forall f i, advance_to fuel (sh f) (length pre + i) = sh (advance_to fuel f i).
Proof.
  induction fuel as [|fuel IH]; intros f i; [reflexivity|]. cbn [advance_to].
  change (l_idx (sh f)) with (length pre + l_idx f)%nat. rewrite ltb_plus, sh_advance.
  destruct (_ <? _)%nat; [apply IH|reflexivity].
Qed.

(** ** Words *)

Lemma advance_n_line k : forall f, (c_line (l_cur f) <= c_line (l_cur (advance_n k f)))%nat.
Proof.
  induction k as [|k IH]; intros f; cbn [advance_n]; [lia|]. specialize (IH (advance f)). pose proof (advance_line f). lia.
Qed.
Lemma advance_n_col k : forall f, c_line (l_cur (advance_n k f)) = 0%nat -> c_col (l_cur (advance_n k f)) = (c_col (l_cur f) + k)%nat.
Proof.
  induction k as [|k IH]; intros f H; cbn [advance_n] in *; [lia|]. rewrite (IH _ H).
  pose proof (advance_n_line k (advance f)) as Hl. rewrite H in Hl.
  unfold advance in *. destruct (current_char f =? ch_nl); cbn [l_cur set_cur c_col c_line] in *; lia.
Qed.
Lemma sh_rewind k f : rewind k (sh (advance_n k f)) = sh (rewind k (advance_n k f)).
Proof.
  unfold rewind. rewrite <- sh_setcur. f_equal. unfold scur. cbn [c_idx c_line c_col].
  change (l_idx (sh (advance_n k f))) with (length pre + l_idx (advance_n k f))%nat.
  change (c_line (l_cur (sh (advance_n k f)))) with (dl + c_line (l_cur (advance_n k f)))%nat.
  change (c_col (l_cur (sh (advance_n k f)))) with (scol (c_line (l_cur (advance_n k f))) (c_col (l_cur (advance_n k f)))).
  rewrite advance_n_idx. f_equal; [lia|]. unfold scol.
  destruct (Nat.eqb_spec (c_line (l_cur (advance_n k f))) 0) as [E|]; [|reflexivity].
  rewrite (advance_n_col _ _ E). lia.
Qed.
Lemma match_some_adv f s g : match_ f s = Some g -> g = advance_n (length s) f.
Proof.
  unfold match_. cbv zeta. destruct (_ <? _)%nat; [discriminate|]. destruct (str_eqb _ _); [|discriminate].
  destruct (_ && _); [discriminate|]. congruence.
Qed.
Lemma sh_match_keyword f ks : match_keyword (sh f) ks = option_map sp (match_keyword f ks).
Proof.
  induction ks as [|[s t] ks IH]; [reflexivity|]. cbn [match_keyword]. rewrite sh_match.
  destruct (match_ f s); [reflexivity|exact IH].
Qed.
Definition self_word (f : lx) : option ttype * lx :=
  if negb (is_dot (ty (l_last f))) && negb (is_constant_resolution (ty (l_last f))) then
    match match_ f (s2l "self") with
    | Some f' =>
      if (current_char f' =? "."%ch) || ((current_char f' =? ":"%ch) && (peek f' =? ":"%ch))
      then (Some T_SelfKeyword, f')
      else (None, rewind 4 f')
    | None => (None, f)
    end
  else (None, f).
Lemma sh_self_word f : same_last f -> self_word (sh f) = sp (self_word f).
Proof.
  intros Hl. unfold self_word. rewrite !sh_g_last, sh_match, (sh_last_test is_dot f Hl eq_refl), (sh_last_test is_constant_resolution f Hl eq_refl). destruct (_ && _); [|reflexivity].
  destruct (match_ f (s2l "self")) as [g|] eqn:E; [|reflexivity].
  cbn [option_map]. rewrite sh_cur, sh_peek. destruct (_ || _); [reflexivity|].
  apply match_some_adv in E. subst g. change (length (s2l "self")) with 4%nat. rewrite sh_rewind. reflexivity.
Qed.
Lemma sh_keyword f : same_last f -> lex_keyword (sh f) = option_map sp (lex_keyword f).
Proof.
  intros Hl. unfold lex_keyword. cbv zeta. fold (self_word f). fold (self_word (sh f)). rewrite sh_self_word by exact Hl.
  destruct (self_word f) as [k h]. unfold sp at 1. cbn [fst snd].
  rewrite sh_g_names, sh_match_keyword. destruct (_ =? 0).
  - destruct (match_keyword h keywords) as [[t g]|]; [reflexivity|]. destruct k; reflexivity.
  - destruct k; reflexivity.
Qed.
Lemma sh_lex_word f : same_last f -> lex_word (sh f) = mapr sb (lex_word f).
Proof.
  intros Hl. unfold lex_word. rewrite sh_keyword by exact Hl. destruct (lex_keyword f) as [[t g]|]; cbn [option_map sp fst snd].
  - rewrite sh_cur, sh_peek, sh_g_ternary. destruct (_ && _ && _); cbv zeta; [rewrite sh_advance|]; reflexivity.
  - rewrite sh_cur. cbv zeta. destruct (is_name_start_char _); [rewrite sh_bare by exact Hl; apply sh_plain|].
    destruct (between _ _ _); [rewrite sh_bare by exact Hl; apply sh_plain|].
    rewrite sh_non_ws. destruct (consume_non_whitespace f) as [[b g]| |]; reflexivity.
Qed.

(** ** The big switch *)

Lemma sh_err_token (r : res (option ttype * str * lx)) :
  (let* (err, buf, f) := mapr sp r in
   match err with
   | Some t => Ok (tkl f t [current_char f], f, None)
   | None => Ok (tkl f T_String buf, f, None)
   end) =
  mapr sb (let* (err, buf, f) := r in
   match err with
   | Some t => Ok (tkl f t [current_char f], f, None)
   | None => Ok (tkl f T_String buf, f, None)
   end).
Proof.
  destruct r as [[[[t|] b] f]| |]; try reflexivity. cbn [bind mapr sp fst snd]. rewrite sh_cur. reflexivity.
Qed.
Lemma sh_sb_st (r : res (token * lx)) (g : token -> token) : (forall t, g (sht t) = sht (g t)) ->
  (let* (t, f) := mapr st r in Ok (g t, f, None)) = mapr sb (let* (t, f) := r in Ok (g t, f, None)).
Proof. intros H. destruct r as [[t f]| |]; try reflexivity. cbn. rewrite H. reflexivity. Qed.

Definition blind (f : lx) : Prop :=
  wsf (l_ws f) = l_ws f \/
  (is_valid (ty (l_last f)) = false /\ lf T_Invalid = T_Invalid /\ (current_char f = "<"%ch -> peek f <> "<"%ch)).
Definition unmoved (f : lx) : Prop :=
  dc = 0%nat \/ (0 < c_line (l_cur f))%nat \/ (0 < c_col (l_cur f))%nat \/
  (current_char f = "="%ch -> match_ (advance f) (s2l "begin") = None).

Lemma cur_advance f : current_char (advance f) = peek f.
Proof.
  unfold current_char, peek. replace (l_idx (advance f)) with (l_idx f + 1)%nat.
  2: { unfold advance. destruct (_ =? ch_nl); cbn [l_cur set_cur c_idx]; lia. }
  replace (l_size (advance f)) with (l_size f) by (unfold advance; destruct (_ =? ch_nl); reflexivity).
  replace (l_input (advance f)) with (l_input f) by (unfold advance; destruct (_ =? ch_nl); reflexivity).
  reflexivity.
Qed.

Ltac brs := repeat match goal with
  | |- (if ?b then _ else _) = mapr _ (if ?b then _ else _) => destruct b eqn:?
  end.
Lemma sh_switch f : same_last f -> blind f -> unmoved f -> lex_switch (sh f) = mapr sb (lex_switch f).
Proof.
  intros Hl Hw Hc. unfold lex_switch. cbv zeta.
  rewrite ?sh_cur, ?sh_peek, ?sh_g_last, ?(sh_last_test can_be_complex_or_rational f Hl eq_refl), ?(sh_first f Hl).
  assert (El : forall f, l_last (advance f) = l_last f) by (intros; unfold advance; destruct (_ =? ch_nl); reflexivity).
  assert (En : forall f, l_names (advance f) = l_names f) by (intros; unfold advance; destruct (_ =? ch_nl); reflexivity).
  destruct (current_char f =? "="%ch) eqn:E0.
  { rewrite ?sh_advance, ?sh_cur, ?sh_advance. brs; try reflexivity.
    assert (Hd : dc = 0%nat \/ (0 < c_line (l_cur (advance f)))%nat \/ (1 < c_col (l_cur (advance f)))%nat \/
                 match_ (advance f) (s2l "begin") = None).
    { destruct Hc as [Hc|[Hc|[Hc|Hc]]]; [auto| | |right; right; right; apply Hc; apply N.eqb_eq; exact E0].
      - right; left. pose proof (advance_line f). lia.
      - right; right; left. unfold advance. replace (current_char f =? ch_nl) with false by (symmetry; apply N.eqb_neq; intros A; rewrite A in E0; discriminate).
        cbn. lia. }
    rewrite sh_match. destruct (match_ (advance f) (s2l "begin")) as [g|] eqn:Em;
      [|cbn [option_map]; destruct (_ =? 1)%nat, (_ =? 1)%nat; reflexivity].
    replace (c_col (l_cur (sh (advance f))) =? 1)%nat with (c_col (l_cur (advance f)) =? 1)%nat.
    2: { destruct Hd as [Hd|[Hd|[Hd|Hd]]]; [| | |discriminate].
         all: change (c_col (l_cur (sh (advance f)))) with (scol (c_line (l_cur (advance f))) (c_col (l_cur (advance f)))).
         all: unfold scol; destruct (Nat.eqb_spec (c_line (l_cur (advance f))) 0); [|reflexivity].
         all: destruct (Nat.eqb_spec (c_col (l_cur (advance f))) 1), (Nat.eqb_spec (dc + c_col (l_cur (advance f)))%nat 1); lia || reflexivity. }
    destruct (Nat.eqb_spec (c_col (l_cur (advance f))) 1) as [E1|E1]; [|reflexivity].
    cbn [option_map]. apply match_some_adv in Em.
    rewrite sh_fuel, sh_begin_doc.
    2: { destruct Hd as [Hd|[Hd|[Hd|Hd]]]; [auto| |lia|discriminate]. right. subst g. pose proof (advance_n_line (length (s2l "begin")) (advance f)). lia. }
    destruct (begin_doc_loop _ _ _) as [[b h]| |]; reflexivity. }
  destruct (current_char f =? "+"%ch); [rewrite ?sh_advance, ?sh_cur, ?sh_advance, ?sh_g_names; brs; reflexivity|].
  destruct (current_char f =? "-"%ch); [rewrite ?sh_advance, ?sh_cur, ?sh_advance, ?sh_g_names; brs; reflexivity|].
  destruct (current_char f =? "*"%ch); [rewrite ?sh_advance, ?sh_cur, ?sh_advance, ?sh_cur, ?sh_advance; brs; reflexivity|].
  destruct (current_char f =? "/"%ch).
  { rewrite ?sh_advance, ?sh_cur, ?sh_advance, ?sh_g_last, ?sh_g_names, ?El, ?En.
    change (l_ws (sh (advance f))) with (wsf (l_ws (advance f))).
    replace (l_ws (advance f)) with (l_ws f) by (unfold advance; destruct (_ =? ch_nl); reflexivity).
    rewrite ?sh_regexp. destruct Hl as [Hl|[Hl1 [Hl2 Hl3]]].
    - rewrite Hl. destruct Hw as [Hw|[Hw _]].
      + rewrite Hw. destruct (negb _); [reflexivity|]. destruct (_ <? _); [reflexivity|].
        destruct (ty (l_last f)); brs; reflexivity.
      + rewrite Hw. reflexivity.
    - rewrite Hl1, Hl2, Hl3. reflexivity. }
  destruct (current_char f =? "%"%ch).
  { rewrite ?sh_advance, ?sh_cur, ?sh_advance.
    repeat (match goal with |- (if ?b then _ else _) = mapr _ (if ?b then _ else _) => destruct b end;
      [first [reflexivity | apply sh_percent; intros;
        first [rewrite sh_sq; apply sh_plain | apply sh_dq | apply sh_regexp | apply sh_psym | apply sh_array ]]|]).
    apply sh_percent; intros; apply sh_dq. }
  destruct (current_char f =? "!"%ch); [rewrite ?sh_advance, ?sh_cur, ?sh_advance, ?sh_g_names; brs; reflexivity|].
  destruct (current_char f =? "<"%ch) eqn:E1.
  { rewrite ?sh_advance, ?sh_cur. destruct (current_char (advance f) =? "<"%ch) eqn:E2.
    - rewrite ?sh_advance, ?sh_cur, ?sh_peek, ?sh_g_last, ?sh_heredoc, ?sh_advance.
      assert (Hl' : same_last (advance (advance f))) by (unfold same_last; rewrite ?El, ?En; exact Hl).
      rewrite (sh_first _ Hl'), (sh_last_test can_precede_heredoc_that_looks_like_left_shift_operator _ Hl' eq_refl).
      change (l_ws (sh (advance (advance f)))) with (wsf (l_ws (advance (advance f)))).
      replace (l_ws (advance (advance f))) with (l_ws f) by (unfold advance; destruct (_ =? ch_nl), (_ =? ch_nl); reflexivity).
      destruct Hw as [Hw|[_ [_ Hw]]]; [rewrite Hw; brs; reflexivity|].
      rewrite cur_advance in E2. lia.
    - rewrite ?sh_advance, ?sh_cur, ?sh_advance. brs; reflexivity. }
  destruct (current_char f =? ">"%ch); [rewrite ?sh_advance, ?sh_cur, ?sh_advance, ?sh_cur, ?sh_advance; brs; reflexivity|].
  destruct (current_char f =? "&"%ch); [rewrite ?sh_advance, ?sh_cur, ?sh_advance, ?sh_cur, ?sh_advance; brs; reflexivity|].
  destruct (current_char f =? "|"%ch); [rewrite ?sh_advance, ?sh_cur, ?sh_advance, ?sh_cur, ?sh_advance; brs; reflexivity|].
  destruct (current_char f =? "^"%ch); [rewrite ?sh_advance, ?sh_cur, ?sh_advance; brs; reflexivity|].
  destruct (current_char f =? "~"%ch); [rewrite ?sh_advance, ?sh_cur, ?sh_advance, ?sh_g_names; brs; reflexivity|].
  destruct (current_char f =? "?"%ch).
  { rewrite ?sh_advance, ?sh_cur, ?sh_advance. destruct (_ || _); [reflexivity|]. destruct (current_char (advance f) =? ch_bs); [|reflexivity].
    rewrite sh_escaped. apply sh_err_token. }
  destruct (current_char f =? ":"%ch) eqn:E2.
  { rewrite ?sh_advance, ?sh_cur, ?sh_advance, sh_g_last, sh_g_ternary, sh_ternary, sh_symbol, sh_plain, sh_dq, sh_sq.
    destruct (current_char (advance f) =? ":"%ch); [reflexivity|].
    change (l_ws (sh (advance f))) with (wsf (l_ws (advance f))).
    replace (l_ws (advance f)) with (l_ws f) by (unfold advance; destruct (_ =? ch_nl); reflexivity).
    rewrite El.
    rewrite (sh_last_test (fun t => ttype_eqb t T_InterpolatedStringEnd) f Hl eq_refl).
    assert (A : ttype_eqb (ty (l_last f)) T_InterpolatedStringEnd && negb (wsf (l_ws f)) =
                ttype_eqb (ty (l_last f)) T_InterpolatedStringEnd && negb (l_ws f)).
    { destruct Hw as [Hw|[Hw _]]; [rewrite Hw; reflexivity|].
      destruct (ty (l_last f)); try reflexivity; discriminate. }
    rewrite A. brs; try reflexivity.
    destruct (consume_single_quoted_string _ _ _) as [[t g]| |]; reflexivity. }
  destruct (current_char f =? "@"%ch).
  { rewrite ?sh_advance, ?sh_word_token. destruct (peek f =? "@"%ch); [|apply sh_plain].
    apply (sh_sb_st _ (fun t => set_lit t ("@"%ch :: cstr (literal_or_blank t)))). reflexivity. }
  destruct (current_char f =? "$"%ch).
  { rewrite ?sh_advance_n, sh_nth, sh_global, ?sh_plain. brs; reflexivity. }
  destruct (current_char f =? "."%ch); [rewrite ?sh_advance, ?sh_cur, ?sh_advance, ?sh_cur, ?sh_advance; brs; reflexivity|].
  rewrite ?sh_advance, ?sh_cur.
  destruct (current_char f =? "{"%ch); [reflexivity|].
  destruct (current_char f =? "["%ch); [rewrite ?sh_advance, ?sh_cur, ?sh_advance; brs; reflexivity|].
  destruct (current_char f =? "("%ch); [reflexivity|].
  destruct (current_char f =? "}"%ch); [reflexivity|].
  destruct (current_char f =? "]"%ch); [reflexivity|].
  destruct (current_char f =? ")"%ch); [reflexivity|].
  destruct (current_char f =? ch_nl).
  { change (l_heredocs (sh (advance f))) with (map (plus (length pre)) (l_heredocs (advance f))).
    destruct (l_heredocs (advance f)) as [|i hs]; [reflexivity|]. cbn [map].
    change (l_idx (sh (advance f))) with (length pre + l_idx (advance f))%nat.
    replace (length pre + i - (length pre + l_idx (advance f)))%nat with (i - l_idx (advance f))%nat by lia.
    rewrite sh_advance_to. reflexivity. }
  destruct (current_char f =? ";"%ch); [reflexivity|].
  destruct (current_char f =? ","%ch); [reflexivity|].
  destruct (current_char f =? """"%ch); [reflexivity|].
  destruct (current_char f =? "'"%ch); [rewrite sh_sq; apply sh_plain|].
  destruct (current_char f =? "`"%ch); [rewrite sh_g_names; brs; reflexivity|].
  destruct (current_char f =? "#"%ch).
  { rewrite sh_fuel, sh_hash_doc, sh_comment. destruct (token_is_first_on_line f).
    - destruct (hash_doc_loop _ _ _ _) as [[b g]| |]; reflexivity.
    - destruct (comment_loop _ _) as [g| |]; reflexivity. }
  rewrite sh_numeric, sh_plain, sh_advance_n, sh_lex_word by exact Hl. brs; reflexivity.
Qed.

(** A byte-order mark counts only at the very beginning. *)
Definition markless (f : lx) : Prop :=
  (pre = [] /\ wsf (l_ws f) = l_ws f) \/ l_idx f <> 0%nat \/ current_char f <> 0xEF.
Lemma advance_past f c : (current_char f =? c) = true -> c <> ch_nl -> (0 < c_col (l_cur (advance f)))%nat.
Proof.
  intros E H. unfold advance. replace (current_char f =? ch_nl) with false by (symmetry; apply N.eqb_neq; apply N.eqb_eq in E; congruence).
  cbn. lia.
Qed.
Lemma advance_ws f : l_ws (advance f) = l_ws f.
Proof. unfold advance. destruct (_ =? ch_nl); reflexivity. Qed.
Lemma advance_last f : l_last (advance f) = l_last f.
Proof. unfold advance. destruct (_ =? ch_nl); reflexivity. Qed.
Lemma advance_names f : l_names (advance f) = l_names f.
Proof. unfold advance. destruct (_ =? ch_nl); reflexivity. Qed.
Definition past_mark (f : lx) : lx :=
  let f := advance f in
  let f := if current_char f =? 0xBB then advance f else f in
  if current_char f =? 0xBF then advance f else f.
Lemma past_mark_ok f : (current_char f =? 0xEF) = true ->
  (0 < c_col (l_cur (past_mark f)))%nat /\ l_ws (past_mark f) = l_ws f.
Proof.
  intros E. unfold past_mark. cbv zeta.
  assert (H1 := advance_past f _ E ltac:(discriminate)). assert (W1 := advance_ws f).
  destruct (current_char (advance f) =? 0xBB) eqn:E2.
  - assert (H2 := advance_past _ _ E2 ltac:(discriminate)). assert (W2 := advance_ws (advance f)).
    destruct (_ =? 0xBF) eqn:E3; [|split; congruence || assumption].
    split; [exact (advance_past _ _ E3 ltac:(discriminate))|rewrite advance_ws; congruence].
  - destruct (_ =? 0xBF) eqn:E3; [|split; assumption].
    split; [exact (advance_past _ _ E3 ltac:(discriminate))|rewrite advance_ws; congruence].
Qed.
Lemma sh_past_mark f : past_mark (sh f) = sh (past_mark f).
Proof. unfold past_mark. cbv zeta. rewrite ?sh_advance, ?sh_cur, ?sh_if, ?sh_cur, ?sh_advance, ?sh_if. reflexivity. Qed.

Lemma unmoved_depth f d : unmoved f -> unmoved (set_depth f d).
Proof.
  intros [H|[H|[H|H]]]; [left; exact H|right; left; exact H|right; right; left; exact H|right; right; right].
  intros E. specialize (H E). assert (A : advance (set_depth f d) = set_depth (advance f) d).
  { unfold advance. change (current_char (set_depth f d)) with (current_char f). destruct (_ =? ch_nl); reflexivity. }
  rewrite A. unfold match_ in *. cbv zeta in *. cbn [l_size l_cur l_input set_depth] in *.
  destruct (_ <? _)%nat; [reflexivity|]. destruct (str_eqb _ _); [|reflexivity]. destruct (_ && _); [reflexivity|discriminate].
Qed.
Lemma build_base_eq f : build_base f =
  if (l_size f <=? l_idx f)%nat then Ok (tkc f T_Eof, f, None)
  else if negb (l_start f =? 0) && (current_char f =? l_start f) then
    lex_switch (set_depth f (S (l_depth f)))
  else if negb (l_stop f =? 0) && (current_char f =? l_stop f) then
    match l_depth f with
    | O => Ok (tkc f T_Eof, f, None)
    | S d => lex_switch (set_depth f d)
    end
  else if (l_idx f =? 0)%nat && (current_char f =? 0xEF) then lex_switch (past_mark f)
  else lex_switch f.
Proof. reflexivity. Qed.
Lemma sh_base f : same_last f -> blind f -> unmoved f -> markless f -> build_base (sh f) = mapr sb (build_base f).
Proof.
  intros Hl Hw Hc Hm. rewrite !build_base_eq.
  change (l_size (sh f)) with (length pre + l_size f)%nat. change (l_idx (sh f)) with (length pre + l_idx f)%nat.
  rewrite leb_plus, ?sh_cur, ?sh_g_start, ?sh_g_stop, ?sh_g_depth.
  destruct (_ <=? _)%nat; [reflexivity|].
  destruct (negb (l_start f =? 0) && _); [rewrite sh_depth; apply sh_switch; [exact Hl|exact Hw|apply unmoved_depth; exact Hc]|].
  destruct (negb (l_stop f =? 0) && _); [destruct (l_depth f); [reflexivity|]; rewrite sh_depth; apply sh_switch; [exact Hl|exact Hw|apply unmoved_depth; exact Hc]|].
  destruct ((l_idx f =? 0)%nat && (current_char f =? 0xEF)) eqn:E.
  - assert (Hm' : pre = [] /\ wsf (l_ws f) = l_ws f) by (destruct Hm as [Hm|Hm]; [exact Hm|lia]). destruct Hm' as [E1 E2].
    replace ((length pre + l_idx f =? 0)%nat && (current_char f =? 0xEF)) with true by (rewrite E1; symmetry; exact E).
    apply andb_true_iff in E. destruct E as [_ E]. destruct (past_mark_ok f E) as [P1 P2].
    rewrite sh_past_mark. apply sh_switch; [|left; rewrite P2; exact E2|right; right; left; exact P1].
    unfold same_last, past_mark. cbv zeta.
    destruct (_ =? 0xBB), (_ =? 0xBF); rewrite ?advance_last, ?advance_names; exact Hl.
  - replace ((length pre + l_idx f =? 0)%nat && (current_char f =? 0xEF)) with false by lia.
    apply sh_switch; assumption.
Qed.

(** ** Nested lexers *)

Lemma sh_sub_false f a b : wsf false = false /\ lf T_Invalid = T_Invalid -> sub_lx (sh f) a b = sh (sub_lx f a b).
Proof. intros [H1 H2]. unfold sub_lx, sh, kind_only. cbn. rewrite H1, H2. reflexivity. Qed.
Lemma sh_str_loop fuel (Hf : wsf false = false /\ lf T_Invalid = T_Invalid) : forall f et al buf, str_loop fuel (sh f) et al buf = mapr sk (str_loop fuel f et al buf).
Proof.
  induction fuel as [|fuel IH]; intros f et al buf; [reflexivity|]. cbn [str_loop]. cbv zeta.
  rewrite ?sh_cur, ?sh_peek, ?sh_g_stop, ?sh_g_start, ?sh_g_depth, ?sh_depth, ?sh_advance, ?sh_advance_n, sh_escaped.
  destruct (current_char f =? 0); [destruct (_ =? 0); reflexivity|].
  destruct (_ && _).
  { destruct (consume_escaped_byte _ _) as [[[[t|] b] g]| |]; try reflexivity; cbn [bind mapr sp fst snd].
    - rewrite sh_cur. reflexivity.
    - apply IH. }
  destruct (_ && _). { destruct buf; [|reflexivity]. unfold str_start_evaluation. rewrite sh_sub_false by exact Hf. reflexivity. }
  destruct (_ && _); [apply IH|]. destruct (current_char f =? l_stop f); [|apply IH].
  rewrite sh_g_depth. destruct (l_depth (advance f)); [destruct buf; reflexivity|]. rewrite sh_depth. apply IH.
Qed.
Lemma sh_str (Hf : wsf false = false /\ lf T_Invalid = T_Invalid) f s et al : build_str (sh f) s et al = mapr sk (build_str f s et al).
Proof.
  destruct s; cbn [build_str]; cbv zeta; try reflexivity.
  - rewrite sh_fuel. apply sh_str_loop. exact Hf.
  - unfold str_start_evaluation. rewrite sh_sub_false by exact Hf. reflexivity.
  - rewrite sh_advance. reflexivity.
Qed.
Lemma sh_options_loop fuel : forall f b, options_loop fuel (sh f) b = mapr sp (options_loop fuel f b).
Proof. induction fuel as [|fuel IH]; intros f b; [reflexivity|]. cbn [options_loop]. go. apply IH. Qed.
Lemma sh_options f : consume_options (sh f) = mapr sp (consume_options f).
Proof. unfold consume_options. rewrite sh_fuel. apply sh_options_loop. Qed.
Lemma sh_regexp_loop fuel : forall f opts buf, regexp_loop fuel (sh f) opts buf = mapr sk (regexp_loop fuel f opts buf).
Proof.
  induction fuel as [|fuel IH]; intros f opts buf; [reflexivity|]. cbn [regexp_loop]. cbv zeta.
  rewrite ?sh_cur, ?sh_peek, ?sh_g_stop, ?sh_g_start, ?sh_g_depth, ?sh_depth, ?sh_advance, ?sh_advance_n, ?sh_cur, ?sh_g_stop.
  destruct (current_char f =? 0); [reflexivity|]. destruct (_ && _); [apply IH|]. destruct (_ && _); [reflexivity|].
  destruct (_ && _); [apply IH|]. destruct (current_char f =? l_stop f); [|apply IH].
  rewrite sh_g_depth. destruct (l_depth (advance f)); [|rewrite sh_depth; apply IH].
  rewrite sh_options. destruct (consume_options _) as [[o g]| |]; reflexivity.
Qed.
Lemma sh_regexp_k f s opts : build_regexp (sh f) s opts = mapr sk (build_regexp f s opts).
Proof.
  destruct s; cbn [build_regexp]; cbv zeta; try reflexivity.
  - rewrite sh_fuel. apply sh_regexp_loop.
  - rewrite ?sh_advance, sh_options, ?sh_cur, ?sh_g_stop. destruct (_ =? _); [|reflexivity].
    destruct (consume_options _) as [[o g]| |]; reflexivity.
  - destruct opts; reflexivity.
Qed.
Lemma sh_dyn f it start d buf : dynamic_string_finish (sh f) it start d buf = mapr sk (dynamic_string_finish f it start d buf).
Proof. destruct buf; reflexivity. Qed.
Lemma sh_array_loop fuel : forall f s it start d buf,
  array_loop fuel (sh f) s it start d buf = mapr sk (array_loop fuel f s it start d buf).
Proof.
  induction fuel as [|fuel IH]; intros f s it start d buf; [reflexivity|]. cbn [array_loop]. cbv zeta.
  rewrite ?sh_cur, ?sh_peek, ?sh_g_stop, ?sh_advance, ?sh_advance_n, ?sh_cur, ?sh_dyn.
  destruct (current_char f =? 0); [reflexivity|]. destruct (_ && _); [apply IH|].
  destruct (isspace _). { destruct (w_in_dynamic s); [reflexivity|]. destruct buf; [apply IH|reflexivity]. }
  destruct (_ && _ && _); [reflexivity|]. destruct (_ && _); [apply IH|].
  destruct (current_char f =? l_stop f); [|apply IH]. destruct d; [|apply IH].
  destruct (w_in_dynamic s); [reflexivity|]. destruct buf; reflexivity.
Qed.
Lemma sh_words (Hf : wsf false = false /\ lf T_Invalid = T_Invalid) f s it start d buf :
  build_words (sh f) s it start d buf = mapr sk (build_words f s it start d buf).
Proof.
  destruct s; cbn [build_words]; cbv zeta; rewrite ?sh_fuel, ?sh_advance, ?sh_cur, ?sh_g_stop; try reflexivity; try apply sh_array_loop.
  - destruct (_ =? _); reflexivity.
  - rewrite sh_sub_false by exact Hf. reflexivity.
Qed.

Definition kind_ready (k : kind) (f : lx) : Prop :=
  match k with
  | KBase => same_last f /\ blind f /\ unmoved f /\ markless f
  | KRegexp _ _ => True
  | _ => wsf false = false /\ lf T_Invalid = T_Invalid
  end.
Lemma sh_build f k : kind_ready k f -> build (sh f) k = mapr sk (build f k).
Proof.
  destruct k; cbn [build kind_ready]; intros H.
  - destruct H as [H0 [H1 [H2 H3]]]. rewrite sh_base by assumption. destruct (build_base f) as [[[t g] n]| |]; reflexivity.
  - apply sh_str. exact H.
  - apply sh_regexp_k.
  - apply sh_words. exact H.
Qed.
End shift.

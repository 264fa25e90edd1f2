(** * LexString: the text of string literals *)
From Coq Require Import Strings.String NArith ZArith Bool Arith List Lia ZifyBool ZifyNat ZifyN.
From Verif Require Import Base Token Spec LexModel LexBasics LexRest LexInv LexFwd LexNumbers.
Import ListNotations.
Open Scope N_scope.

(** ** UTF-8 *)

Lemma lor_add a b k : (0 <= a)%Z -> (0 <= b < 2 ^ k)%Z -> (0 <= k)%Z -> Z.lor (a * 2 ^ k) b = (a * 2 ^ k + b)%Z.
Proof.
  intros Ha Hb Hk.
  assert (Hl : Z.land (a * 2 ^ k) b = 0%Z).
  { apply Z.bits_inj'. intros n Hn. rewrite Z.land_spec, Z.bits_0.
    destruct (Z.lt_ge_cases n k) as [H|H].
    - rewrite Z.mul_pow2_bits_low by lia. reflexivity.
    - rewrite <- (Z.mod_small b (2 ^ k)) by lia. rewrite Z.mod_pow2_bits_high by lia. apply andb_false_r. }
  rewrite Z.add_nocarry_lxor by exact Hl. symmetry. apply Z.lxor_lor. exact Hl.
Qed.

Lemma to_char_small z : (0 <= z < 256)%Z -> to_char z = Z.to_N z.
Proof. intros H. unfold to_char. rewrite Z.mod_small by exact H. reflexivity. Qed.

Lemma cont_byte z : (0 <= z)%Z -> to_char (Z.lor 128 (Z.land z 63)) = 128 + Z.to_N z mod 64.
Proof.
  intros H. change 63%Z with (Z.ones 6). rewrite Z.land_ones by lia. change (2 ^ 6)%Z with 64%Z.
  pose proof (Z.mod_pos_bound z 64 eq_refl) as Hm.
  change 128%Z with (1 * 2 ^ 7)%Z. rewrite lor_add; [|lia|change (2 ^ 7)%Z with 128%Z; lia|lia].
  change (1 * 2 ^ 7)%Z with 128%Z. rewrite to_char_small by lia. rewrite Z2N.inj_add by lia. f_equal.
  rewrite Z2N.inj_mod by lia. reflexivity.
Qed.

Lemma utf32_spec cp : cp < 0x200000 -> utf32_codepoint_to_utf8 (Z.of_N cp) = Ok (utf8 cp).
Proof.
  intros H. unfold utf32_codepoint_to_utf8, utf8.
  replace (Z.of_N cp <? 0x80)%Z with (cp <? 0x80) by lia.
  replace (Z.of_N cp <? 0x800)%Z with (cp <? 0x800) by lia.
  replace (Z.of_N cp <? 0x10000)%Z with (cp <? 0x10000) by lia.
  replace (Z.of_N cp <? 0x200000)%Z with true by lia.
  rewrite !Z.shiftr_div_pow2 by lia.
  change (2 ^ 6)%Z with (Z.of_N 64). change (2 ^ 12)%Z with (Z.of_N 4096). change (2 ^ 18)%Z with (Z.of_N 262144).
  rewrite <- !N2Z.inj_div. rewrite !cont_byte by lia. rewrite !N2Z.id.
  assert (Hl : forall a k q, (0 <= a)%Z -> (0 <= k)%Z -> (Z.of_N q < 2 ^ k)%Z -> (a * 2 ^ k + Z.of_N q < 256)%Z ->
    to_char (Z.lor (a * 2 ^ k) (Z.of_N q)) = Z.to_N (a * 2 ^ k) + q).
  { intros a k q Ha Hk Hq Hs. rewrite lor_add by lia.
    assert (0 <= a * 2 ^ k)%Z by (apply Z.mul_nonneg_nonneg; [lia|apply Z.pow_nonneg; lia]).
    rewrite to_char_small by lia. rewrite Z2N.inj_add by lia. rewrite N2Z.id. reflexivity. }
  destruct (cp <? 0x80) eqn:E1; [rewrite to_char_small by lia; rewrite N2Z.id; reflexivity|].
  destruct (cp <? 0x800) eqn:E2.
  { change 192%Z with (6 * 2 ^ 5)%Z. rewrite Hl; [reflexivity|lia|lia| |];
      assert (cp / 64 < 32) by (apply N.div_lt_upper_bound; lia); change (2 ^ 5)%Z with 32%Z; lia. }
  destruct (cp <? 0x10000) eqn:E3.
  { change 224%Z with (14 * 2 ^ 4)%Z. rewrite Hl; [reflexivity|lia|lia| |];
      assert (cp / 4096 < 16) by (apply N.div_lt_upper_bound; lia); change (2 ^ 4)%Z with 16%Z; lia. }
  change 240%Z with (30 * 2 ^ 3)%Z. rewrite Hl; [reflexivity|lia|lia| |];
    assert (cp / 262144 < 8) by (apply N.div_lt_upper_bound; lia); change (2 ^ 3)%Z with 8%Z; lia.
Qed.

Lemma utf8_decode_encode cp : cp < 0x200000 -> utf8_decode (utf8 cp) = Some cp.
Proof.
  intros H. unfold utf8.
  assert (M : forall x, x mod 64 < 64) by (intros; apply N.mod_lt; discriminate).
  destruct (cp <? 0x80) eqn:E1; [cbn [utf8_decode]; rewrite E1; reflexivity|].
  destruct (cp <? 0x800) eqn:E2.
  { assert (cp / 64 < 32) by (apply N.div_lt_upper_bound; lia). pose proof (M cp).
    cbn [utf8_decode]. unfold between.
    match goal with |- (if ?b then _ else _) = _ => replace b with true by lia end.
    f_equal. pose proof (N.div_mod cp 64). lia. }
  destruct (cp <? 0x10000) eqn:E3.
  { assert (cp / 4096 < 16) by (apply N.div_lt_upper_bound; lia). pose proof (M cp). pose proof (M (cp / 64)).
    cbn [utf8_decode]. unfold between.
    match goal with |- (if ?b then _ else _) = _ => replace b with true by lia end.
    f_equal. pose proof (N.div_mod cp 64). pose proof (N.div_mod (cp / 64) 64).
    rewrite N.div_div in H4 by lia. change (64 * 64) with 4096 in H4. lia. }
  assert (cp / 262144 < 8) by (apply N.div_lt_upper_bound; lia). pose proof (M cp). pose proof (M (cp / 64)). pose proof (M (cp / 4096)).
  cbn [utf8_decode]. unfold between.
  match goal with |- (if ?b then _ else _) = _ => replace b with true by lia end.
  f_equal. pose proof (N.div_mod cp 64). pose proof (N.div_mod (cp / 64) 64). pose proof (N.div_mod (cp / 4096) 64).
  rewrite N.div_div in H5 by lia. rewrite N.div_div in H6 by lia.
  change (64 * 64) with 4096 in H5. change (4096 * 64) with 262144 in H6. lia.
Qed.

(** ** Digits of escapes *)

Lemma hex_loop_fwd n : forall f z ds r,
  at_text f (ds ++ r) -> (1 <= length ds <= n)%nat -> Forall (fun c => isxdigit c = true) ds ->
  ((length ds < n)%nat -> isxdigit (hd 0 r) = false) ->
  hex_loop n f (Z.of_N z) = (Z.of_N (numval_from 16 z ds), advance_n (length ds) f).
Proof.
  induction n as [|n IH]; intros f z ds r Hat Hl Hd Hr; [lia|].
  destruct ds as [|d ds]; [cbn [length] in Hl; lia|]. inversion Hd as [|? ? Hd1 Hd2]; subst.
  cbn [hex_loop app] in *. rewrite (at_cur _ _ _ Hat). rewrite (xdigit_cases d Hd1).
  replace (Z.of_N z * 16 + Z.of_N (dval d))%Z with (Z.of_N (z * 16 + dval d)) by lia.
  pose proof (at_adv _ _ _ Hat) as Hat1. rewrite (at_cur_hd _ _ Hat1).
  destruct ds as [|e ds].
  - cbn [app]. destruct n as [|n]; [destruct (isxdigit (hd 0 r)); reflexivity|].
    rewrite Hr by (cbn [length]; lia). reflexivity.
  - inversion Hd2; subst. cbn [app hd]. rewrite H1. cbn [length] in Hl. destruct n as [|n]; [lia|].
    rewrite (IH (advance f) (z * 16 + dval d) (e :: ds) r); auto; cbn [length] in *; [lia|].
    intros. apply Hr. lia.
Qed.
Lemma hex_fwd n f ds r :
  at_text f (ds ++ r) -> hex_digits 1 n ds -> ((length ds < n)%nat -> isxdigit (hd 0 r) = false) ->
  consume_hex_number n f = (Z.of_N (numval 16 ds), advance_n (length ds) f).
Proof. intros Hat [Hl Hd] Hr. apply (hex_loop_fwd n f 0 ds r); auto. Qed.

Lemma oct_loop_fwd n : forall f z ds r,
  at_text f (ds ++ r) -> (1 <= length ds <= n)%nat -> Forall (fun c => isoctal c = true) ds ->
  ((length ds < n)%nat -> isoctal (hd 0 r) = false) ->
  oct_loop n f (Z.of_N z) = (Z.of_N (numval_from 8 z ds), advance_n (length ds) f).
Proof.
  assert (Hc : forall c, isoctal c = true -> (schar c - 48)%Z = Z.of_N (dval c)).
  { intros c. rewrite isoctal_iff. unfold schar, dval. intros.
    repeat match goal with |- context [if ?b then _ else _] => destruct b eqn:? end; lia. }
  induction n as [|n IH]; intros f z ds r Hat Hl Hd Hr; [lia|].
  destruct ds as [|d ds]; [cbn [length] in Hl; lia|]. inversion Hd as [|? ? Hd1 Hd2]; subst.
  cbn [oct_loop app] in *. rewrite (at_cur _ _ _ Hat). rewrite (Hc d Hd1).
  replace (Z.of_N z * 8 + Z.of_N (dval d))%Z with (Z.of_N (z * 8 + dval d)) by lia.
  pose proof (at_adv _ _ _ Hat) as Hat1. rewrite (at_cur_hd _ _ Hat1).
  destruct ds as [|e ds].
  - cbn [app]. destruct n as [|n]; [destruct (isoctal (hd 0 r)); reflexivity|].
    rewrite Hr by (cbn [length]; lia). reflexivity.
  - inversion Hd2; subst. cbn [app hd]. rewrite H1. cbn [length] in Hl. destruct n as [|n]; [lia|].
    rewrite (IH (advance f) (z * 8 + dval d) (e :: ds) r); auto; cbn [length] in *; [lia|].
    intros. apply Hr. lia.
Qed.

Lemma numval_bound base ds acc : Forall (fun c => dval c < base) ds ->
  numval_from base acc ds < (acc + 1) * base ^ N.of_nat (length ds).
Proof.
  revert acc. induction ds as [|d ds IH]; intros acc H.
  - cbn [numval_from length]. change (N.of_nat 0) with 0. rewrite N.pow_0_r. lia.
  - inversion H; subst. cbn [numval_from length]. eapply N.lt_le_trans; [apply IH; assumption|].
    rewrite Nat2N.inj_succ, N.pow_succ_r'. rewrite N.mul_assoc. apply N.mul_le_mono_r. nia.
Qed.
Lemma xdigit_dval c : isxdigit c = true -> dval c < 16.
Proof. rewrite isxdigit_iff. unfold dval. intros. repeat match goal with |- context [if ?b then _ else _] => destruct b eqn:? end; lia. Qed.
Lemma hex_bound ds n : Forall (fun c => isxdigit c = true) ds -> (length ds <= n)%nat -> numval 16 ds < 16 ^ N.of_nat n.
Proof.
  intros Hd Hl. eapply N.lt_le_trans; [apply (numval_bound 16 ds 0)|].
  - eapply Forall_impl; [|exact Hd]. apply xdigit_dval.
  - rewrite N.add_0_l, N.mul_1_l. apply N.pow_le_mono_r; lia.
Qed.

Lemma skip_blanks_S n g : skip_blanks (S n) g = if current_char g =? " "%ch then skip_blanks n (advance g) else Ok g.
Proof. reflexivity. Qed.
Lemma skip_blanks_none f w fuel : at_text f w -> hd 0 w <> " "%ch -> (0 < fuel)%nat -> skip_blanks fuel f = Ok f.
Proof.
  intros Hat H Hf. destruct fuel; [lia|]. cbn [skip_blanks]. rewrite (at_cur_hd _ _ Hat).
  apply N.eqb_neq in H. rewrite H. reflexivity.
Qed.
Lemma fuel_pos f : (0 < loop_fuel f)%nat.
Proof. unfold loop_fuel. lia. Qed.

Lemma xdigit_not c d : isxdigit c = true -> isxdigit d = false -> (c =? d) = false.
Proof. intros H1 H2. apply N.eqb_neq. intros ->. congruence. Qed.

Lemma braced_fwd dss : forall f buf r fuel,
  Forall (fun ds => hex_digits 1 6 ds /\ numval 16 ds < 0x200000) dss ->
  at_text f (blank_separated dss ++ "}"%ch :: r) -> (length dss < fuel)%nat ->
  braced_unicode fuel f buf =
    Ok (true, buf ++ concat (map (fun ds => utf8 (numval 16 ds)) dss), advance_n (length (blank_separated dss)) f).
Proof.
  induction dss as [|ds dss IH]; intros f buf r fuel Hd Hat Hf; (destruct fuel as [|fuel]; [lia|]); cbn [braced_unicode].
  - cbn [blank_separated app] in Hat. rewrite (at_cur _ _ _ Hat). change ("}"%ch =? "}"%ch) with true. cbv iota.
    cbn [map concat length advance_n blank_separated]. rewrite app_nil_r. reflexivity.
  - inversion Hd as [|? ? [Hx Hv] Hd']; subst. pose proof Hx as [Hl Hds].
    destruct ds as [|d ds]; [cbn [length] in Hl; lia|].
    inversion Hds as [|? ? Hd1 Hd2]; subst.
    assert (E : exists q, blank_separated ((d :: ds) :: dss) ++ "}"%ch :: r = (d :: ds) ++ q /\ isxdigit (hd 0 q) = false /\
       (dss = [] /\ q = "}"%ch :: r \/ exists e es, dss = e :: es /\ q = " "%ch :: blank_separated dss ++ "}"%ch :: r)).
    { destruct dss as [|e es].
      - exists ("}"%ch :: r). split; [reflexivity|]. split; [reflexivity|]. auto.
      - exists (" "%ch :: blank_separated (e :: es) ++ "}"%ch :: r).
        cbn [blank_separated]. rewrite <- app_assoc. split; [reflexivity|]. split; [reflexivity|]. right. eauto. }
    destruct E as (q & E & Hq & Hcase). apply (eq_ind _ (at_text f)) with (2 := E) in Hat.
    assert (Hcur : current_char f = d) by (apply (at_cur _ _ (ds ++ q) Hat)).
    rewrite Hcur, (xdigit_not d "}"%ch Hd1 eq_refl), Hd1. cbn [negb].
    rewrite (hex_fwd 6 f (d :: ds) q) by auto. cbv iota beta.
    rewrite (utf32_spec _ Hv). cbn [bind].
    pose proof (at_adv_n _ _ _ Hat) as Hg. set (g := advance_n (length (d :: ds)) f) in *.
    destruct Hcase as [[-> ->]|(e & es & E2 & ->)].
    + rewrite (skip_blanks_none g _ _ Hg) by (try apply fuel_pos; discriminate). cbn [bind].
      rewrite (IH g _ r fuel) by (auto; cbn [length] in *; lia).
      cbn [map concat blank_separated length advance_n]. rewrite !app_nil_r. reflexivity.
    + assert (Hsk : skip_blanks (loop_fuel g) g = Ok (advance g)).
      { rewrite (at_fuel _ _ Hg). rewrite skip_blanks_S. rewrite (at_cur _ _ _ Hg). change (" "%ch =? " "%ch) with true. cbv iota.
        pose proof (at_adv _ _ _ Hg) as Hg1. apply (skip_blanks_none _ _ _ Hg1); [|lia].
        subst dss. inversion Hd' as [|? ? [[He1 He2] _] _]; subst. destruct e as [|c e]; [cbn [length] in He1; lia|].
        inversion He2; subst. destruct es; cbn [blank_separated app hd]; intros ->; discriminate. }
      rewrite Hsk. cbn [bind].
      rewrite (IH (advance g) _ r fuel Hd' (at_adv _ _ _ Hg)) by (cbn [length] in *; lia).
      cbn [map concat]. rewrite <- app_assoc. f_equal. f_equal. subst dss. cbn [blank_separated].
      rewrite app_length. cbn [length]. unfold g. rewrite advance_n_S, advance_n_plus. f_equal. cbn [length]. lia.
Qed.

(** ** One escape *)

Lemma control_fwd meta f dash c r : at_text f (ctrl_text dash c ++ r) -> ctrl_char c -> (dash = false -> c <> "-"%ch) ->
  control_character meta f = (Some (Z.of_N (ctrl_value c) + (if meta then 128 else 0))%Z, advance_n (if dash then 2 else 1) f).
Proof.
  intros Hat [Hc1 Hc2] Hd. unfold control_character.
  assert (Hfin : forall g, current_char g = c ->
    Z.of_N (if current_char g =? "?"%ch then 127
            else if between " "%ch ">"%ch (current_char g) then current_char g - 32
            else if between "@"%ch "_"%ch (current_char g) then current_char g - 64
            else if between "`"%ch "~"%ch (current_char g) then current_char g - 96 else 0) = Z.of_N (ctrl_value c)).
  { intros g ->. f_equal. unfold ctrl_value, between.
    destruct (c =? "?"%ch) eqn:E; [reflexivity|]. apply N.eqb_neq in E.
    assert (Hm : forall q x, c = 32 * q + x -> x < 32 -> c mod 32 = x).
    { intros q x H1 H2. symmetry. apply (N.mod_unique _ _ q); lia. }
    destruct ((" "%ch <=? c) && (c <=? ">"%ch)) eqn:E1; [symmetry; apply (Hm 1); lia|].
    destruct (("@"%ch <=? c) && (c <=? "_"%ch)) eqn:E2; [symmetry; apply (Hm 2); lia|].
    destruct (("`"%ch <=? c) && (c <=? "~"%ch)) eqn:E3; [symmetry; apply (Hm 3); lia|]. lia. }
  assert (Hgo : forall g, at_text g (c :: r) ->
    (if negb meta && (current_char g =? ch_bs) && (peek g =? "M"%ch) then
       let h := advance_n 2 g in
       if negb (current_char h =? "-"%ch) then (None, h)
       else (fun (meta : bool) (f : lx) =>
          let c := current_char f in
          let num := Z.of_N (if c =? "?"%ch then 127 else if between " "%ch ">"%ch c then c - 32
                       else if between "@"%ch "_"%ch c then c - 64 else if between "`"%ch "~"%ch c then c - 96 else 0) in
          (Some (if meta then (num + 128)%Z else num), f)) true (advance h)
     else (fun (meta : bool) (f : lx) =>
          let c := current_char f in
          let num := Z.of_N (if c =? "?"%ch then 127 else if between " "%ch ">"%ch c then c - 32
                       else if between "@"%ch "_"%ch c then c - 64 else if between "`"%ch "~"%ch c then c - 96 else 0) in
          (Some (if meta then (num + 128)%Z else num), f)) meta g) =
    (Some (Z.of_N (ctrl_value c) + (if meta then 128 else 0))%Z, g)).
  { intros g Hg. pose proof (at_cur _ _ _ Hg) as Hcur. rewrite Hcur at 1.
    apply N.eqb_neq in Hc2. rewrite Hc2, andb_false_r. cbn [andb].
    cbv beta zeta. rewrite (Hfin g Hcur). destruct meta; f_equal; f_equal. lia. }
  destruct dash; cbn [ctrl_text app] in Hat.
  - pose proof (at_adv _ _ _ Hat) as H1. rewrite (at_cur _ _ _ H1). change ("-"%ch =? "-"%ch) with true. cbv iota.
    apply (Hgo (advance (advance f))). apply (at_adv _ _ _ H1).
  - pose proof (at_adv _ _ _ Hat) as H1. pose proof (at_cur _ _ _ H1) as Hc.
    specialize (Hd eq_refl). apply N.eqb_neq in Hd. rewrite <- Hc in Hd. rewrite Hd. apply (Hgo (advance f) H1).
Qed.

(** After the backslash, every piece but a plain character. *)
Lemma escape_fwd f start stop p w buf r :
  piece_text p = ch_bs :: w -> p <> PChar ch_bs -> piece_ok start stop p (hd 0 r) -> at_text f (w ++ r) ->
  consume_escaped_byte f buf = Ok (None, buf ++ piece_bytes p, advance_n (length w) f).
Proof.
  intros Ht Hnc Hok Hat. unfold consume_escaped_byte.
  destruct p; cbn [piece_text piece_ok piece_bytes] in *; [exfalso; congruence| ..]; injection Ht as <-.
  - (* quoted *)
    destruct Hok as [H0 He]. cbn [app] in Hat. rewrite (at_cur _ _ _ Hat).
    unfold escape_letter in He. apply orb_false_elim in He. destruct He as [He1 He3]. apply orb_false_elim in He1.
    destruct He1 as [He1 He2]. rewrite He1.
    assert (He2' : existsb (N.eqb c) ["x"; "u"; "a"; "b"; "c"; "C"; "e"; "f"; "M"; "n"; "r"; "s"; "t"; "v"]%ch = false) by exact He2.
    clear He2. cbn [existsb] in He2'.
    repeat (apply orb_false_elim in He2'; let H := fresh in destruct He2' as [H He2']; try rewrite H).
    cbn [orb]. rewrite He3. reflexivity.
  - (* named *)
    destruct Hok as [v Hin]. cbn [app] in Hat. rewrite (at_cur _ _ _ Hat).
    cbn [named_escapes In] in Hin.
    repeat (destruct Hin as [Hin|Hin]; [injection Hin as <- <-; reflexivity|]). contradiction.
  - (* join *)
    cbn [app] in Hat. rewrite (at_cur _ _ _ Hat). rewrite app_nil_r. reflexivity.
  - (* octal *)
    destruct Hok as (Hl & Hd & Hr). destruct ds as [|d ds]; [cbn [length] in Hl; lia|].
    inversion Hd as [|? ? Hd1 Hd2]; subst.
    assert (Hc : current_char f = d) by (apply (at_cur _ _ (ds ++ r) Hat)). rewrite Hc, Hd1.
    unfold consume_octal_number. change 0%Z with (Z.of_N 0).
    rewrite (oct_loop_fwd 3 f 0 (d :: ds) r) by auto. cbv iota beta. fold (numval 8 (d :: ds)).
    do 4 f_equal. unfold to_char. change 256%Z with (Z.of_N 256). rewrite <- N2Z.inj_mod, N2Z.id. reflexivity.
  - (* hex *)
    destruct Hok as [Hx Hr]. cbn [app] in Hat. rewrite (at_cur _ _ _ Hat).
    change (isoctal "x"%ch) with false. change ("x"%ch =? "x"%ch) with true. cbv iota.
    pose proof (at_adv _ _ _ Hat) as H1. rewrite (hex_fwd 2 (advance f) ds r) by auto. cbv iota beta.
    destruct Hx as [Hl Hd]. pose proof (hex_bound ds 2 Hd ltac:(lia)) as Hb. change (16 ^ N.of_nat 2) with 256 in Hb.
    rewrite to_char_small by lia. rewrite N2Z.id. reflexivity.
  - (* unicode *)
    destruct Hok as [Hx Hr]. cbn [app] in Hat. rewrite (at_cur _ _ _ Hat).
    change (isoctal "u"%ch) with false. change ("u"%ch =? "x"%ch) with false. change ("u"%ch =? "u"%ch) with true. cbv iota.
    pose proof (at_adv _ _ _ Hat) as H1. pose proof Hx as [Hl Hd].
    assert (Hc : (current_char (advance f) =? "{"%ch) = false).
    { destruct ds as [|d ds]; [cbn [length] in Hl; lia|]. inversion Hd; subst.
      rewrite (at_cur _ _ _ H1). apply xdigit_not; auto. }
    rewrite Hc, (hex_fwd 4 (advance f) ds r) by auto. cbv iota beta.
    pose proof (hex_bound ds 4 Hd ltac:(lia)) as Hb. change (16 ^ N.of_nat 4) with 65536 in Hb.
    rewrite utf32_spec by lia. reflexivity.
  - (* braced *)
    destruct Hok as [Hne Hd]. cbn [app] in Hat. rewrite (at_cur _ _ _ Hat).
    change (isoctal "u"%ch) with false. change ("u"%ch =? "x"%ch) with false. change ("u"%ch =? "u"%ch) with true. cbv iota.
    pose proof (at_adv _ _ _ Hat) as H1. rewrite (at_cur _ _ _ H1). change ("{"%ch =? "{"%ch) with true. cbv iota.
    pose proof (at_adv _ _ _ H1) as H2. rewrite <- app_assoc in H2. cbn [app] in H2.
    rewrite (braced_fwd dss _ buf r) by (auto; rewrite (at_fuel _ _ H2), app_length; cbn [length];
      assert (Hlen : forall l, Forall (fun ds => hex_digits 1 6 ds /\ numval 16 ds < 0x200000) l -> (length l <= length (blank_separated l))%nat)
        by (clear; intros l H; induction H as [|ds l [[H _] _] _ IH]; [reflexivity|];
            destruct l; cbn [blank_separated length] in *; [lia|rewrite app_length; cbn [length] in *; lia]);
      specialize (Hlen dss Hd); lia).
    cbn [bind]. f_equal. f_equal. cbn [length]. rewrite app_length. cbn [length].
    rewrite advance_n_S. replace (length (blank_separated dss) + 1)%nat with (S (length (blank_separated dss))) by lia. reflexivity.
  - (* control *)
    destruct Hok as [Hc Hd].
    assert (Hcur : current_char f = if dash then "C"%ch else "c"%ch) by (destruct dash; apply (at_cur _ _ _ Hat)).
    assert (E : forall X (a b : X), (if (current_char f =? "c"%ch) || (current_char f =? "C"%ch) then a else b) = a)
      by (intros; rewrite Hcur; destruct dash; reflexivity).
    rewrite (control_fwd false f dash c r) by auto.
    assert (Hbnd : ctrl_value c < 256).
    { unfold ctrl_value. destruct (c =? "?"%ch); [lia|]. pose proof (N.mod_lt c 32). lia. }
    rewrite Z.add_0_r, to_char_small by lia. rewrite N2Z.id.
    rewrite Hcur. destruct dash; cbn [ctrl_text length]; reflexivity.
  - (* meta *)
    destruct Hok as [Hc Hb]. cbn [app] in Hat. rewrite (at_cur _ _ _ Hat).
    pose proof (at_adv _ _ _ Hat) as H1. rewrite (at_cur _ _ _ H1). pose proof (at_adv _ _ _ H1) as H2.
    rewrite (at_cur _ _ _ H2). apply N.eqb_neq in Hb. rewrite Hb. cbn [andb].
    unfold schar. replace (c <? 128) with true by lia. rewrite to_char_small by lia.
    replace (Z.to_N (Z.of_N c + 128)) with (c + 128) by lia. reflexivity.
  - (* meta control *)
    destruct Hok as [Hc Hd]. cbn [app] in Hat. rewrite (at_cur _ _ _ Hat).
    pose proof (at_adv _ _ _ Hat) as H1. rewrite (at_cur _ _ _ H1). pose proof (at_adv _ _ _ H1) as H2.
    rewrite (at_cur _ _ _ H2). pose proof (at_adv _ _ _ H2) as H3.
    rewrite (at_peek _ _ _ H2).
    rewrite (control_fwd true (advance (advance (advance f))) dash c r) by auto.
    assert (Hbnd : ctrl_value c < 128).
    { unfold ctrl_value. destruct (c =? "?"%ch); [lia|]. pose proof (N.mod_lt c 32). lia. }
    rewrite to_char_small by lia. replace (Z.to_N (Z.of_N (ctrl_value c) + 128)) with (ctrl_value c + 128) by lia.
    destruct dash; reflexivity.
Qed.

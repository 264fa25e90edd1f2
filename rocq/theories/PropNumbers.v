(** * PropNumbers: integer literals denote their value *)
From Coq Require Import Strings.String NArith ZArith Bool Arith List Lia.
From Verif Require Import Base Token Spec LexModel LexBasics LexRest LexInv LexFwd LexNumbers.
Import ListNotations.
Open Scope list_scope.
Open Scope N_scope.

(** ** C09: decimal integers *)

Theorem C09_decimal : forall ds txt fuel,
  separated ds txt -> Forall (fun c => isdigit c = true) ds -> hd 0 ds <> "0"%ch -> (2 <= fuel)%nat ->
  exists t e, tokens fuel txt = Ok [t; e] /\ ty e = T_Eof /\
    int_value t = Some (numval 10 ds) /\
    (ty t = T_Fixnum <-> numval 10 ds <= 2 ^ 62 - 1) /\
    (ty t = T_Fixnum \/ ty t = T_Bignum /\ lit t = Some ds).
Proof.
  intros ds txt fuel Hs Hd H0 Hf. exists (num_tok (numval 10 ds) ds), (eof_at txt).
  split; [|split; [reflexivity|split; [apply num_tok_value, ruby_integer_decimal; auto|]]].
  - apply number_source; [|destruct (separated_head _ _ _ Hs Hd) as (d & ? & ? & _ & -> & ?); assumption|exact Hf].
    apply (lex_decimal _ ds txt []); auto; [|apply ends_nil]. rewrite app_nil_r. apply at_tokpos, at_new.
  - unfold num_tok. destruct (N.leb_spec (numval 10 ds) (2 ^ 62 - 1)) as [H|H]; cbn [ty lit]; split; auto; split; auto; intros; [discriminate|lia].
Qed.

(** The same at any point of any text: whatever follows that is not a letter
    a-f, a digit, an underscore or a fraction stays untouched. *)
Theorem C09_decimal_in_context : forall f ds txt r,
  separated ds txt -> Forall (fun c => isdigit c = true) ds -> hd 0 ds <> "0"%ch ->
  at_text f (txt ++ r) -> ends_number r ->
  exists t f', lex_switch f = Ok (t, f', None) /\ int_value t = Some (numval 10 ds) /\ at_text f' r.
Proof.
  intros f ds txt r Hs Hd H0 Hat Hr. rewrite (lex_decimal f ds txt r) by auto.
  do 2 eexists. split; [reflexivity|]. split; [|apply at_adv_n; exact Hat].
  rewrite int_tok_value. apply (num_tok_value (numval 10 ds) ds). apply ruby_integer_decimal; auto.
Qed.

Theorem C09_zero : forall fuel, (2 <= fuel)%nat ->
  exists t e, tokens fuel ["0"%ch] = Ok [t; e] /\ ty e = T_Eof /\ int_value t = Some 0.
Proof.
  intros fuel Hf. exists (num_tok 0 ["0"%ch]), (eof_at ["0"%ch]). split; [|split; reflexivity].
  apply number_source; [|reflexivity|exact Hf].
  apply (lex_zero _ []); try discriminate; [apply at_tokpos, at_new|apply ends_nil].
Qed.

Example C09_example :
  let ds := s2l "4611686018427387904"%string in
  separated ds (s2l "4_611_686_018_427_387_904"%string) /\ Forall (fun c => isdigit c = true) ds /\
  numval 10 ds = 2 ^ 62 /\
  match tokens 2 (s2l "4_611_686_018_427_387_904"%string), tokens 2 (s2l "4611686018427387903"%string) with
  | Ok [a; _], Ok [b; _] => (ty a, lit a, ty b, fix_ b) = (T_Bignum, Some ds, T_Fixnum, (2 ^ 62 - 1)%Z)
  | _, _ => False
  end.
Proof.
  cbv zeta. split; [repeat first [apply sep_one | apply sep_under | apply sep_next]|]. split; [repeat constructor|]. split; vm_compute; reflexivity.
Qed.

(** ** C10: other radices *)

(** 0x, 0o, 0b (either case): value and type. *)
Theorem C10_prefixed : forall c base prefix p ds txt fuel,
  radix c base prefix p -> prefix <> [] ->
  separated ds txt -> Forall (fun c => p c = true) ds -> (2 <= fuel)%nat ->
  exists t e, tokens fuel ("0"%ch :: c :: txt) = Ok [t; e] /\ ty e = T_Eof /\
    int_value t = Some (numval base ds) /\
    (ty t = T_Fixnum <-> numval base ds <= 2 ^ 62 - 1).
Proof.
  intros c base prefix p ds txt fuel Hr Hp Hs Hd Hf.
  exists (num_tok (numval base ds) (prefix ++ ds)), (eof_at ("0"%ch :: c :: txt)).
  split; [|split; [reflexivity|split]].
  - apply number_source; [|reflexivity|exact Hf].
    apply (lex_prefixed _ c base prefix p ds txt []); auto; [|apply ends_nil]. rewrite app_nil_r. apply at_tokpos, at_new.
  - apply num_tok_value. destruct Hr; try reflexivity; congruence.
  - unfold num_tok. destruct (N.leb_spec (numval base ds) (2 ^ 62 - 1)); cbn [ty]; split; auto; intros; [discriminate|lia].
Qed.

(** 0d: right as long as the value is a Fixnum or has no leading zero. *)
Theorem C10_decimal_prefix : forall c ds txt fuel,
  c = "d"%ch \/ c = "D"%ch ->
  separated ds txt -> Forall (fun c => isdigit c = true) ds -> (2 <= fuel)%nat ->
  hd 0 ds <> "0"%ch \/ numval 10 ds <= 2 ^ 62 - 1 ->
  exists t e, tokens fuel ("0"%ch :: c :: txt) = Ok [t; e] /\ ty e = T_Eof /\
    int_value t = Some (numval 10 ds).
Proof.
  intros c ds txt fuel Hc Hs Hd Hf Hv.
  exists (num_tok (numval 10 ds) ds), (eof_at ("0"%ch :: c :: txt)).
  split; [|split; [reflexivity|]].
  - apply number_source; [|reflexivity|exact Hf].
    apply (lex_prefixed _ c 10 [] isdigit ds txt []); auto; [constructor; exact Hc| |apply ends_nil].
    rewrite app_nil_r. apply at_tokpos, at_new.
  - destruct Hv as [H0|Hv]; [apply num_tok_value, ruby_integer_decimal; auto|].
    unfold num_tok. apply N.leb_le in Hv. rewrite Hv. unfold int_value. cbn [ty fix_].
    replace (0 <=? Z.of_N (numval 10 ds))%Z with true by (symmetry; apply Z.leb_le, N2Z.is_nonneg). rewrite N2Z.id. reflexivity.
Qed.

(** A bare leading 0 (octal): right as long as the value is a Fixnum. *)
Theorem C10_bare_octal : forall ds txt fuel,
  separated ds txt -> Forall (fun c => isoctal c = true) ds -> (2 <= fuel)%nat -> numval 8 ds <= 2 ^ 62 - 1 ->
  exists t e, tokens fuel ("0"%ch :: txt) = Ok [t; e] /\ ty e = T_Eof /\ int_value t = Some (numval 8 ds).
Proof.
  intros ds txt fuel Hs Hd Hf Hv.
  destruct (separated_head _ _ _ Hs Hd) as (d & ds' & t & -> & Ht & Ho).
  exists (num_tok (numval 8 (d :: ds')) (d :: d :: ds')), (eof_at ("0"%ch :: txt)).
  split; [|split; [reflexivity|]].
  - apply number_source; [|reflexivity|exact Hf].
    apply (lex_bare_octal _ d ds' txt []); auto; [|apply ends_nil]. rewrite app_nil_r. apply at_tokpos, at_new.
  - unfold num_tok. apply N.leb_le in Hv. rewrite Hv. unfold int_value. cbn [ty fix_].
    replace (0 <=? Z.of_N (numval 8 (d :: ds')))%Z with true by (symmetry; apply Z.leb_le, N2Z.is_nonneg). rewrite N2Z.id. reflexivity.
Qed.

(** Beyond 2^62-1 both lose the radix: the bignum text of a bare octal literal
    is its digits with the first one doubled and no leading 0, that of 0d...
    keeps a leading 0 that makes it octal. *)
Theorem C10_bare_octal_bignum_refuted :
  ~ (forall ds fuel, Forall (fun c => isoctal c = true) ds -> ds <> [] -> (2 <= fuel)%nat ->
       exists t e, tokens fuel ("0"%ch :: ds) = Ok [t; e] /\ int_value t = Some (numval 8 ds)).
Proof.
  intros H. destruct (H (s2l "7777777777777777777777"%string) 2%nat) as (t & e & H1 & H2); [repeat constructor|discriminate|lia|].
  vm_compute in H1. injection H1 as <- <-. vm_compute in H2. discriminate.
Qed.
Theorem C10_decimal_prefix_bignum_refuted :
  ~ (forall ds fuel, Forall (fun c => isdigit c = true) ds -> ds <> [] -> (2 <= fuel)%nat ->
       exists t e, tokens fuel ("0"%ch :: "d"%ch :: ds) = Ok [t; e] /\ int_value t = Some (numval 10 ds)).
Proof.
  intros H. destruct (H (s2l "07777777777777777777777"%string) 2%nat) as (t & e & H1 & H2); [repeat constructor|discriminate|lia|].
  vm_compute in H1. injection H1 as <- <-. vm_compute in H2. discriminate.
Qed.

Example C10_example :
  radix "x"%ch 16 ["0"%ch; "x"%ch] isxdigit /\
  separated (s2l "FFFFFFFFFFFFFFFFff"%string) (s2l "FF_FFFFFFFFFFFFFF_ff"%string) /\
  match tokens 2 (s2l "0xFF_FFFFFFFFFFFFFF_ff"%string), tokens 2 (s2l "0b1_01"%string), tokens 2 (s2l "0_17"%string), tokens 2 (s2l "01_7"%string) with
  | Ok [a; _], Ok [b; _], Ok [c; _], Ok [d; _] =>
    (int_value a, int_value b, int_value c, int_value d) = (Some (2 ^ 72 - 1), Some 5, Some 17, Some 15)
  | _, _, _, _ => False
  end.
Proof. split; [constructor; auto|]. split; [repeat first [apply sep_one | apply sep_under | apply sep_next]|vm_compute; reflexivity]. Qed.

Print Assumptions C09_decimal.
Print Assumptions C09_decimal_in_context.
Print Assumptions C09_zero.
Print Assumptions C10_prefixed.
Print Assumptions C10_decimal_prefix.
Print Assumptions C10_bare_octal.
Print Assumptions C10_bare_octal_bignum_refuted.
Print Assumptions C10_decimal_prefix_bignum_refuted.

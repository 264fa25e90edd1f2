(** * PropWords: identifiers and keywords *)
From Coq Require Import Strings.String NArith ZArith Bool Arith List Lia ZifyBool ZifyNat ZifyN.
From Verif Require Import Base Token Spec SpecLit LexModel LexBasics LexFwd LexIdent LexWords.
Import ListNotations.
Open Scope list_scope.
Open Scope N_scope.

(** ** C15: identifiers are not split *)

Theorem C15_identifier : forall c w fuel,
  ident_start c -> c <> 0xEF -> Forall ident_char w -> (forall t, ~ In (c :: w, t) reserved) -> (2 <= fuel)%nat ->
  exists ts t, tokens fuel (c :: w) = Ok ts /\ shapes ts = [(t, Some (c :: w)); (T_Eof, None)]
    /\ (upper c /\ t = T_Constant \/ ~ upper c /\ t = T_BareName).
Proof.
  intros c w fuel H1 H2 H3 H4 H5. destruct (word_source c w fuel H1 H2 H3 H4 H5) as (ts & T1 & T2).
  do 2 eexists. split; [exact T1|]. split; [exact T2|]. unfold upper, between.
  destruct (_ && _) eqn:E; [left|right]; split; auto; lia.
Qed.
(** The same in the middle of a text, before anything that does not continue the
    word and is not = or a colon. *)
Theorem C15_in_context : forall f c w r,
  ident_start c -> Forall ident_char w -> (forall t, ~ In (c :: w, t) reserved) ->
  at_text f (c :: w ++ r) -> can_be_complex_or_rational (ty (l_last f)) = false ->
  is_identifier_char (hd 0 r) = false -> ~ In (hd 0 r) ["?"; "!"; "="; ":"]%ch ->
  exists t f', lex_switch f = Ok (t, f', None) /\ lit t = Some (c :: w) /\ at_text f' r
    /\ (upper c /\ ty t = T_Constant \/ ~ upper c /\ ty t = T_BareName).
Proof.
  intros f c w r H1 H2 H3 H4 H5 H6 H7. cbn [In] in H7.
  rewrite (lex_ident_fwd f c w r); auto.
  - do 2 eexists. split; [reflexivity|]. split; [reflexivity|]. split.
    + change (c :: w ++ r) with ((c :: w) ++ r) in H4. apply at_adv_n in H4. exact H4.
    + cbn [ty tkl]. unfold upper, between. destruct (_ && _) eqn:E; [left|right]; split; auto; lia.
  - apply ident_start_name. exact H1.
  - eapply Forall_impl; [|exact H2]. apply ident_char_ok.
  - unfold is_identifier_char_or_message_suffix, is_message_suffix. rewrite H6. cbn [orb].
    destruct ((hd 0 r =? "?"%ch) || (hd 0 r =? "!"%ch)) eqn:E; [exfalso; apply H7; lia|destruct (hd 0 r =? 0); reflexivity].
  - intros E. apply H7. rewrite E. auto.
  - intros E. apply H7. rewrite E. auto.
  - intros [t Ht]. apply (H3 t). apply reserved_keywords. exact Ht.
Qed.
(** Not so for a first byte 0xEF at the start of the source: the check for a byte
    order mark drops it. *)
Theorem C15_first_byte_refuted :
  ~ (forall c w, ident_start c -> Forall ident_char w -> (forall t, ~ In (c :: w, t) reserved) ->
       exists ts, tokens 2 (c :: w) = Ok ts /\ In (Some (c :: w)) (map snd (shapes ts))).
Proof.
  intros H. destruct (H 0xEF [0xBD; 0x81]) as (ts & H1 & H2).
  - unfold ident_start. lia.
  - unfold ident_char, ident_start. repeat (constructor; [lia|]). constructor.
  - intros t Ht. cbn [reserved In] in Ht. repeat (destruct Ht as [Ht|Ht]; [discriminate|]). exact Ht.
  - vm_compute in H1. injection H1 as <-. vm_compute in H2. intuition discriminate.
Qed.
Example C15_example :
  let w := s2l "defined_if_1" in
  ident_start (hd 0 w) /\ Forall ident_char (tl w) /\ (forall t, ~ In (w, t) reserved)
  /\ exists ts, tokens 2 w = Ok ts /\ shapes ts = [(T_BareName, Some w); (T_Eof, None)].
Proof.
  cbv zeta. split; [unfold ident_start; cbn; lia|]. split; [|split].
  - cbn. unfold ident_char, ident_start. repeat (constructor; [lia|]). constructor.
  - intros t Ht. cbn [reserved In] in Ht. repeat (destruct Ht as [Ht|Ht]; [discriminate|]). exact Ht.
  - eexists. split; vm_compute; reflexivity.
Qed.

(** ** C16: keywords *)

Theorem C16_keyword : forall k t fuel, In (k, t) reserved -> (2 <= fuel)%nat ->
  exists ts, tokens fuel k = Ok ts /\ shapes ts = [(t, None); (T_Eof, None)].
Proof. exact keyword_source. Qed.
Theorem C16_in_context : forall f k t r,
  In (k, t) reserved -> at_text f (k ++ r) -> n_rem (l_names f) = 0 ->
  is_identifier_char (hd 0 r) = false -> ~ In (hd 0 r) ["?"; "!"; ":"]%ch ->
  exists tok f', lex_switch f = Ok (tok, f', None) /\ shape tok = (t, None) /\ at_text f' r.
Proof.
  intros f k t r H1 H2 H3 H4 H5. cbn [In] in H5.
  rewrite (lex_keyword_fwd f k t r); auto.
  - do 2 eexists. split; [reflexivity|]. split; [reflexivity|]. apply at_adv_n. exact H2.
  - apply reserved_keywords. exact H1.
  - unfold is_identifier_char_or_message_suffix, is_message_suffix. rewrite H4. cbn [orb].
    destruct ((hd 0 r =? "?"%ch) || (hd 0 r =? "!"%ch)) eqn:E; [exfalso; apply H5; lia|destruct (hd 0 r =? 0); reflexivity].
  - intros E. apply H5. rewrite E. auto.
Qed.
(** Where a method name is expected the same text is a name. *)
Example C16_example :
  In (s2l "while", T_WhileKeyword) reserved /\
  exists ts, tokens 9 (s2l "while x.while") = Ok ts /\
    shapes ts = [(T_WhileKeyword, None); (T_BareName, Some (s2l "x")); (T_Dot, None); (T_BareName, Some (s2l "while")); (T_Eof, None)].
Proof. split; [unfold reserved; repeat (try (left; reflexivity); right)|]. eexists. split; vm_compute; reflexivity. Qed.

Print Assumptions C15_identifier.
Print Assumptions C15_in_context.
Print Assumptions C15_first_byte_refuted.
Print Assumptions C16_keyword.
Print Assumptions C16_in_context.

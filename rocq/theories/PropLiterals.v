(** * PropLiterals: quoted literals denote their bytes *)
From Coq Require Import Strings.String NArith ZArith Bool Arith List Lia ZifyBool ZifyNat ZifyN.
From Verif Require Import Base Token Spec SpecLit LexModel LexString LexQuoted.
Import ListNotations.
Open Scope list_scope.
Open Scope N_scope.

(** ** C11: literals without escapes *)

(** '...', %q, :'...' and %s, written with a backslash before the closing
    delimiter and before a backslash, give one token with exactly the bytes. *)
Theorem C11_raw_round_trip : forall op a b t bytes fuel,
  raw_opening op a b t -> raw_writable a b bytes -> (2 <= fuel)%nat ->
  exists ts, tokens fuel (op ++ raw_quoted b bytes ++ [b]) = Ok ts /\ shapes ts = [(t, Some bytes); (T_Eof, None)].
Proof. exact raw_source. Qed.

(** For the plain quote nothing but NUL is excluded. *)
Theorem C11_single_quoted : forall bytes fuel,
  Forall (fun c => c <> 0) bytes -> (2 <= fuel)%nat ->
  exists ts, tokens fuel ("'"%ch :: raw_quoted "'"%ch bytes ++ ["'"%ch]) = Ok ts
    /\ shapes ts = [(T_String, Some bytes); (T_Eof, None)].
Proof.
  intros bytes fuel Hb Hf. apply (raw_source (s2l "'") "'"%ch "'"%ch T_String bytes fuel raw_quote); auto.
  eapply Forall_impl; [|exact Hb]. cbn. auto.
Qed.

(** A nesting opening delimiter can not be escaped: Ruby reads %q(\() as "(", the
    lexer keeps the backslash. *)
Theorem C11_escaped_opener_refuted :
  ~ (forall c, c <> 0 -> exists ts, tokens 2 (s2l "%q(" ++ [ch_bs; c] ++ [")"%ch]) = Ok ts /\
       (c = "("%ch \/ c = ")"%ch \/ c = ch_bs -> shapes ts = [(T_String, Some [c]); (T_Eof, None)])).
Proof.
  intros H. destruct (H "("%ch) as (ts & H1 & H2); [discriminate|]. vm_compute in H1. injection H1 as <-.
  specialize (H2 (or_introl eq_refl)). vm_compute in H2. discriminate.
Qed.

Example C11_example :
  raw_opening (s2l "%q(") "("%ch ")"%ch T_String /\
  raw_writable "("%ch ")"%ch (s2l "it's a \ and )"%string) /\
  raw_quoted ")"%ch (s2l "it's a \ and )"%string) = s2l "it's a \\ and \)"%string /\
  raw_quoted "'"%ch (s2l "it's a \"%string) = s2l "it\'s a \\"%string.
Proof.
  split; [apply (raw_q "("%ch ")"%ch); constructor|]. split; [|split; vm_compute; reflexivity].
  repeat (constructor; [split; intros; discriminate|]). constructor.
Qed.

(** ** C12: literals with escapes *)

(** Any byte string without NUL, written between double quotes, backticks, in
    :"...", %Q, %(), %x with the delimiters, the backslash and # escaped. *)
Theorem C12_round_trip : forall op a b bt et bytes fuel,
  opening op a b bt et -> Forall (fun c => c <> 0) bytes -> (4 <= fuel)%nat ->
  exists ts, tokens fuel (op ++ quoted a b bytes ++ [b]) = Ok ts
    /\ shapes ts = (bt, Some [a]) :: content bytes ++ [(et, None); (T_Eof, None)].
Proof. exact quoted_source. Qed.

(** Every mixture of plain characters and escapes gives the bytes it denotes. *)
Theorem C12_pieces : forall op a b bt et ps fuel,
  opening op a b bt et -> body_ok a b ps -> (4 <= fuel)%nat ->
  exists ts, tokens fuel (op ++ body_text ps ++ [b]) = Ok ts
    /\ shapes ts = (bt, Some [a]) :: content (body_bytes ps) ++ [(et, None); (T_Eof, None)].
Proof. exact literal_source. Qed.

Definition C12_sample : list piece :=
  [ PChar "#"%ch; PChar "x"%ch; PQuoted "#"%ch; PChar "{"%ch; PNamed "n"%ch; PJoin; POct (s2l "12"); PChar "9"%ch;
    PHex (s2l "fF"); PChar "f"%ch; PUni (s2l "20aC"); PBraced [s2l "41"; s2l "1F600"]; PCtrl true "a"%ch; PCtrl false "?"%ch;
    PMeta "a"%ch; PMetaCtrl false "a"%ch; PQuoted ")"%ch; PChar """"%ch ].
Example C12_example :
  opening ["%"; "Q"; "("]%ch "("%ch ")"%ch T_InterpolatedStringBegin T_InterpolatedStringEnd /\
  body_ok "("%ch ")"%ch C12_sample /\
  body_bytes C12_sample = s2l "#x#{" ++ [10; 10] ++ s2l "9" ++ [255] ++ s2l "f" ++ [226; 130; 172; 65; 240; 159; 152; 128; 1; 127; 225; 129]
    ++ s2l ")""".
Proof.
  split; [apply (op_upper_q "("%ch ")"%ch); constructor|]. split; [|vm_compute; reflexivity].
  cbn [body_ok C12_sample piece_ok]. unfold hex_digits, ctrl_char.
  repeat split; try discriminate; try (vm_compute; reflexivity); try (cbn [length s2l]; lia);
    try (repeat constructor; fail); try (intros; discriminate).
  - exists 10. unfold named_escapes. cbn [In]. auto 12.
Qed.

(** ** C13: UTF-8 *)

(** A string consisting of one \u{...} with at most six digits has the UTF-8 form of the
    code point; it decodes to the code point, and no other one has that form. *)
Theorem C13_utf8 : forall ds bytes fuel,
  hex_digits 1 6 ds -> numval 16 ds < 0x200000 -> Forall (fun c => c <> 0) bytes -> (4 <= fuel)%nat ->
  (exists ts, tokens fuel (s2l """\u{" ++ ds ++ "}"%ch :: quoted """"%ch """"%ch bytes ++ [""""%ch]) = Ok ts
    /\ shapes ts = [(T_InterpolatedStringBegin, Some [""""%ch]); (T_String, Some (utf8 (numval 16 ds) ++ bytes));
                    (T_InterpolatedStringEnd, None); (T_Eof, None)])
  /\ utf8_decode (utf8 (numval 16 ds)) = Some (numval 16 ds)
  /\ (forall cp, cp < 0x200000 -> utf8 cp = utf8 (numval 16 ds) -> cp = numval 16 ds).
Proof.
  intros ds bytes fuel Hx Hv Hb Hf. split; [|split].
  - destruct (quoted_pieces """"%ch """"%ch bytes) as [E1 E2].
    destruct (literal_source _ _ _ _ _ (PBraced [ds] :: map (quote_piece """"%ch """"%ch) bytes) fuel op_string) as (ts & T1 & T2).
    + cbn [body_ok]. split; [split; [discriminate|constructor; [auto|constructor]]|]. apply quoted_ok; auto.
    + exact Hf.
    + exists ts. split.
      * rewrite <- T1. unfold body_text. cbn [map concat piece_text blank_separated]. fold (body_text (map (quote_piece """"%ch """"%ch) bytes)).
        rewrite <- E1. f_equal. cbn [app]. rewrite <- !app_assoc. reflexivity.
      * rewrite T2. unfold body_bytes. cbn [map concat piece_bytes]. fold (body_bytes (map (quote_piece """"%ch """"%ch) bytes)).
        rewrite E2, app_nil_r. unfold content.
        destruct (utf8 (numval 16 ds) ++ bytes) as [|x y] eqn:E; [|reflexivity].
        apply app_eq_nil in E. destruct E as [E _]. unfold utf8 in E.
        repeat match type of E with context [if ?b then _ else _] => destruct b end; discriminate.
  - apply utf8_decode_encode. exact Hv.
  - intros cp Hcp E. pose proof (utf8_decode_encode cp Hcp) as D1. pose proof (utf8_decode_encode _ Hv) as D2. congruence.
Qed.
Example C13_example : hex_digits 1 6 (s2l "1F600") /\ numval 16 (s2l "1F600") = 128512 /\ utf8 128512 = [240; 159; 152; 128].
Proof. repeat split; try (cbn; lia). repeat constructor. Qed.

(** ** C14: numeric escapes *)

Lemma escape_then : forall op a b bt et p bytes fuel,
  opening op a b bt et -> piece_ok a b p (hd b (quoted a b bytes)) -> piece_bytes p <> [] ->
  Forall (fun c => c <> 0) bytes -> (4 <= fuel)%nat ->
  exists ts, tokens fuel (op ++ piece_text p ++ quoted a b bytes ++ [b]) = Ok ts
    /\ shapes ts = [(bt, Some [a]); (T_String, Some (piece_bytes p ++ bytes)); (et, None); (T_Eof, None)].
Proof.
  intros op a b bt et p bytes fuel Ho Hp Hne Hb Hf. destruct (quoted_pieces a b bytes) as [E1 E2].
  destruct (opening_escape _ _ _ _ _ Ho) as [H1 H2].
  destruct (literal_source _ _ _ _ _ (p :: map (quote_piece a b) bytes) fuel Ho) as (ts & T1 & T2).
  - cbn [body_ok]. rewrite <- E1. split; [exact Hp|apply quoted_ok; auto].
  - exact Hf.
  - exists ts. split.
    + rewrite <- T1. unfold body_text. cbn [map concat]. fold (body_text (map (quote_piece a b) bytes)).
      rewrite <- E1, <- app_assoc. reflexivity.
    + rewrite T2. unfold body_bytes. cbn [map concat]. fold (body_bytes (map (quote_piece a b) bytes)). rewrite E2.
      unfold content. destruct (piece_bytes p ++ bytes) eqn:E; [|reflexivity].
      apply app_eq_nil in E. destruct E as [E _]. congruence.
Qed.

(** \ooo: one to three octal digits, modulo 256. *)
Theorem C14_octal : forall op a b bt et ds bytes fuel,
  opening op a b bt et -> (1 <= length ds <= 3)%nat -> Forall (fun c => isoctal c = true) ds ->
  (length ds = 3%nat \/ isoctal (hd b (quoted a b bytes)) = false) ->
  Forall (fun c => c <> 0) bytes -> (4 <= fuel)%nat ->
  exists ts, tokens fuel (op ++ (ch_bs :: ds) ++ quoted a b bytes ++ [b]) = Ok ts
    /\ shapes ts = [(bt, Some [a]); (T_String, Some ((numval 8 ds mod 256) :: bytes)); (et, None); (T_Eof, None)].
Proof.
  intros op a b bt et ds bytes fuel Ho Hl Hd Hn Hb Hf.
  apply (escape_then op a b bt et (POct ds) bytes fuel Ho); auto; [|discriminate].
  cbn [piece_ok]. split; [exact Hl|]. split; [exact Hd|]. destruct Hn as [Hn|Hn]; [lia|auto].
Qed.
(** \xhh: one or two hexadecimal digits. *)
Theorem C14_hex : forall op a b bt et ds bytes fuel,
  opening op a b bt et -> hex_digits 1 2 ds ->
  (length ds = 2%nat \/ isxdigit (hd b (quoted a b bytes)) = false) ->
  Forall (fun c => c <> 0) bytes -> (4 <= fuel)%nat ->
  exists ts, tokens fuel (op ++ (ch_bs :: "x"%ch :: ds) ++ quoted a b bytes ++ [b]) = Ok ts
    /\ shapes ts = [(bt, Some [a]); (T_String, Some (numval 16 ds :: bytes)); (et, None); (T_Eof, None)].
Proof.
  intros op a b bt et ds bytes fuel Ho Hx Hn Hb Hf.
  apply (escape_then op a b bt et (PHex ds) bytes fuel Ho); auto; [|discriminate].
  cbn [piece_ok]. split; [exact Hx|]. destruct Hx as [Hl _]. destruct Hn as [Hn|Hn]; [lia|auto].
Qed.
Lemma utf8_nonempty cp : utf8 cp <> [].
Proof. unfold utf8. repeat match goal with |- context [if ?b then _ else _] => destruct b end; discriminate. Qed.
(** \uhhhh: up to four hexadecimal digits. *)
Theorem C14_unicode : forall op a b bt et ds bytes fuel,
  opening op a b bt et -> hex_digits 1 4 ds ->
  (length ds = 4%nat \/ isxdigit (hd b (quoted a b bytes)) = false) ->
  Forall (fun c => c <> 0) bytes -> (4 <= fuel)%nat ->
  exists ts, tokens fuel (op ++ (ch_bs :: "u"%ch :: ds) ++ quoted a b bytes ++ [b]) = Ok ts
    /\ shapes ts = [(bt, Some [a]); (T_String, Some (utf8 (numval 16 ds) ++ bytes)); (et, None); (T_Eof, None)].
Proof.
  intros op a b bt et ds bytes fuel Ho Hx Hn Hb Hf.
  apply (escape_then op a b bt et (PUni ds) bytes fuel Ho); auto; [|apply utf8_nonempty].
  cbn [piece_ok]. split; [exact Hx|]. destruct Hx as [Hl _]. destruct Hn as [Hn|Hn]; [lia|auto].
Qed.
(** \u{...}: code points separated by single blanks. *)
Theorem C14_braced : forall op a b bt et dss bytes fuel,
  opening op a b bt et -> dss <> [] -> Forall (fun ds => hex_digits 1 6 ds /\ numval 16 ds < 0x200000) dss ->
  Forall (fun c => c <> 0) bytes -> (4 <= fuel)%nat ->
  exists ts, tokens fuel (op ++ (ch_bs :: "u"%ch :: "{"%ch :: blank_separated dss ++ ["}"%ch]) ++ quoted a b bytes ++ [b]) = Ok ts
    /\ shapes ts = [(bt, Some [a]); (T_String, Some (concat (map (fun ds => utf8 (numval 16 ds)) dss) ++ bytes)); (et, None); (T_Eof, None)].
Proof.
  intros op a b bt et dss bytes fuel Ho Hne Hx Hb Hf.
  apply (escape_then op a b bt et (PBraced dss) bytes fuel Ho); auto; [cbn [piece_ok]; auto|].
  cbn [piece_bytes]. destruct dss as [|ds dss]; [congruence|]. cbn [map concat]. intros E. apply app_eq_nil in E.
  destruct E as [E _]. exact (utf8_nonempty _ E).
Qed.
(** A \u{...} with a leading blank is legal Ruby but is rejected. *)
Theorem C14_leading_blank_refuted :
  ~ (forall n ds, hex_digits 1 6 ds -> numval 16 ds < 0x200000 ->
       exists ts, tokens 9 (s2l """\u{" ++ repeat " "%ch n ++ ds ++ s2l "}""") = Ok ts /\
         In (T_String, Some (utf8 (numval 16 ds))) (shapes ts)).
Proof.
  intros H. destruct (H 1%nat (s2l "41")) as (ts & H1 & H2).
  - split; [cbn; lia|repeat constructor].
  - vm_compute. reflexivity.
  - vm_compute in H1. injection H1 as <-. vm_compute in H2. intuition discriminate.
Qed.

Example C14_example :
  exists ts, tokens 9 (s2l """\1234\xabc\u20acd""") = Ok ts /\
    shapes ts = [(T_InterpolatedStringBegin, Some [""""%ch]);
                 (T_String, Some [83; "4"%ch; 171; "c"%ch; 226; 130; 172; "d"%ch]); (T_InterpolatedStringEnd, None); (T_Eof, None)].
Proof. eexists. split; vm_compute; reflexivity. Qed.

Print Assumptions C11_raw_round_trip.
Print Assumptions C11_single_quoted.
Print Assumptions C11_escaped_opener_refuted.
Print Assumptions C12_round_trip.
Print Assumptions C12_pieces.
Print Assumptions C13_utf8.
Print Assumptions C14_octal.
Print Assumptions C14_hex.
Print Assumptions C14_unicode.
Print Assumptions C14_braced.
Print Assumptions C14_leading_blank_refuted.

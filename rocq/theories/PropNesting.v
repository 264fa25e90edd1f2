(** * PropNesting: nesting of literals *)
From Coq Require Import Strings.String NArith ZArith Bool List.
From Verif Require Import Base Token Spec LexModel LexNesting.
Import ListNotations.
Open Scope list_scope.
Open Scope N_scope.

(** ** C17: begin and end tokens are properly nested *)

(** A vector ending in Eof is balanced, and an erroneous one never closes what it
    did not open, unless a word of %W or %I has a second interpolation. *)
Theorem C17_nesting : forall s fuel init t, bytes s -> small s ->
  tokens fuel s = Ok (init ++ [t]) -> ~ second_interpolation (init ++ [t]) ->
  scan (map ty init) [] <> None /\ (ty t = T_Eof -> balanced (init ++ [t])).
Proof. exact tokens_balanced. Qed.

(** Without that exception the claim is false. *)
Theorem C17_nesting_refuted :
  ~ (forall s fuel init t, bytes s -> small s -> tokens fuel s = Ok (init ++ [t]) -> ty t = T_Eof ->
       balanced (init ++ [t])).
Proof.
  intros H.
  assert (E : exists ts, tokens 30 (s2l "%W[a#{1}b#{2}]"%string) = Ok ts /\ scan (map ty ts) [] <> Some [] /\
                         ty (last ts no_token) = T_Eof)
    by (eexists; split; [vm_compute; reflexivity|]; split; [vm_compute; discriminate|vm_compute; reflexivity]).
  destruct E as (ts & E1 & E2 & E3). apply E2.
  destruct (exists_last (l := ts)) as (init & t & ->); [intros ->; vm_compute in E2; congruence|].
  rewrite last_last in E3. eapply H; [| |exact E1|exact E3]; [repeat constructor|vm_compute; reflexivity].
Qed.

Definition ex_nest : str := s2l "x = ""a#{[%W[p q#{:s}r]]}b"" + /z#{`ls #{d}`}/i"%string.
Example C17_example :
  bytes ex_nest /\ small ex_nest /\
  exists init t, tokens 60 ex_nest = Ok (init ++ [t]) /\ ~ second_interpolation (init ++ [t]) /\ ty t = T_Eof /\
    length init = 32%nat.
Proof.
  split; [repeat constructor|]. split; [vm_compute; reflexivity|].
  destruct (tokens 60 ex_nest) as [ts| |] eqn:E; [|vm_compute in E; discriminate..].
  exists (removelast ts), (last ts no_token). vm_compute in E. injection E as <-.
  split; [reflexivity|]. split; [apply second_interp_b_sound; vm_compute; reflexivity|]. split; reflexivity.
Qed.
Example C17_example_unterminated :
  match tokens 60 (s2l """a#{b"%string) with
  | Ok ts => scan (map ty (removelast ts)) [] = Some [T_InterpolatedStringEnd]
  | _ => False
  end.
Proof. vm_compute. reflexivity. Qed.

Print Assumptions C17_nesting.
Print Assumptions C17_nesting_refuted.

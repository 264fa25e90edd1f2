(** * Sexp: Node::transform and the Ruby sexp builder

    Modelled code: the [transform] functions in /repo/include/natalie_parser/node/*.hpp
    and /repo/src/node/*.cpp, /repo/include/natalie_parser/creator.hpp,
    /repo/ext/natalie_parser/mri_creator.hpp.

    Simplifications: the file name stored in every sexp is left out (it is the
    same for all tokens); encodings of strings and symbols are left out;
    [rb_enc_reg_new], which raises for an invalid regexp, is left out (the sexp
    holds pattern and options); a float is its sign and the text handed to
    [atof]; a bignum is the text handed to [rb_Integer]. *)
From Coq Require Import Strings.String NArith ZArith Bool List.
From Verif Require Import Base Token LexModel Node ParserBase ParserModel.
Import ListNotations.
Open Scope N_scope.

(** The Ruby values a sexp holds. *)
Inductive sexp :=
| SNil | STrue | SFalse
| SSym (s : str)
| SStr (s : str)
| SInt (z : Z)
| SBig (s : str)
| SFloat (negated : bool) (s : str)
| SRange (first last : Z) (exclude_end : bool)
| SRegexp (pattern : str) (options : N)
| SComplex (v : sexp)
| SRational (v : sexp)
| Sexp (line col : nat) (comments : option str) (items : list sexp).

(** creator.hpp 103-107, mri_creator.hpp 140: the state of a creator. *)
Record creator := Creator {
  c_assignment : bool;
  c_line : nat;
  c_col : nat;
  c_comments : option str;
  c_items : list sexp
}.

Inductive tres :=
| TOk (c : creator)
| TCrash (r : pcrash).

(** What a [transform] does to a creator. *)
Definition T := creator -> tres.
Definition tdone : T := fun c => TOk c.
Definition tcrash (r : pcrash) : T := fun _ => TCrash r.
Definition tseq (f g : T) : T := fun c => match f c with TOk c' => g c' | TCrash r => TCrash r end.
Infix ">>" := tseq (at level 61, right associativity).

(** mri_creator.hpp 14-17: a creator for a node with token [t]. *)
Definition new_creator (t : token) (assignment : bool) : creator :=
  Creator assignment (tk_line t) (tk_col t) None [].
(** mri_creator.hpp 137 with 26-31: the sexp built so far; lines and columns are
    stored plus one. *)
Definition c_sexp (c : creator) : sexp := Sexp (c_line c + 1) (c_col c + 1) (c_comments c) (c_items c).

(** [rb_ary_push(m_sexp, v)], mri_creator.hpp 44 and others. *)
Definition push (v : sexp) : T :=
  fun c => TOk (Creator (c_assignment c) (c_line c) (c_col c) (c_comments c) (c_items c ++ [v])).
(** mri_creator.hpp 33-36. *)
Definition set_comments (s : str) : T :=
  fun c => TOk (Creator (c_assignment c) (c_line c) (c_col c) (Some s) (c_items c)).
(** mri_creator.hpp 38-40. *)
Definition set_type (type : string) : T :=
  fun c =>
    TOk (Creator (c_assignment c) (c_line c) (c_col c) (c_comments c)
           (SSym (s2l type) :: match c_items c with [] => [] | _ :: l => l end)).
(** creator.hpp 46-48. *)
Definition append_nil_sexp : T :=
  fun c => push (Sexp (c_line c + 1) (c_col c + 1) None [SSym (s2l "nil")]) c.
(** mri_creator.hpp 60-113. *)
Definition append_nil : T := push SNil.
Definition append_true : T := push STrue.
Definition append_false : T := push SFalse.
Definition append_symbol (s : str) : T := push (SSym s).
Definition append_string (s : str) : T := push (SStr s).
Definition append_fixnum (z : Z) : T := push (SInt z).
(** creator.hpp 76-82: appending the string behind a pointer; the null pointer is
    dereferenced after the blank string was appended. *)
Definition append_symbol_ptr (s : option str) : T :=
  match s with Some s => append_symbol s | None => tcrash PNull end.
(** mri_creator.hpp 94-98 and 19-22: [append_sexp]; the new creator does not inherit
    [assignment()]. *)
Definition append_sexp (f : T) : T :=
  fun c =>
    match f (Creator false (c_line c) (c_col c) None []) with
    | TOk c' => push (c_sexp c') c
    | TCrash r => TCrash r
    end.
(** mri_creator.hpp 115-119. *)
Definition make_complex_number : T :=
  fun c =>
    match rev (c_items c) with
    | [] => TCrash PRange
    | v :: l => TOk (Creator (c_assignment c) (c_line c) (c_col c) (c_comments c) (rev l ++ [SComplex v]))
    end.
(** mri_creator.hpp 121-128. *)
Definition make_rational_number : T :=
  fun c =>
    match rev (c_items c) with
    | [] => TCrash PRange
    | v :: l => TOk (Creator (c_assignment c) (c_line c) (c_col c) (c_comments c) (rev l ++ [SRational v]))
    end.
(** mri_creator.hpp 130-135. *)
Definition wrap (type : string) : T :=
  fun c => TOk (Creator (c_assignment c) (c_line c) (c_col c) None [SSym (s2l type); c_sexp c]).
(** creator.hpp 87-92. *)
Definition with_assignment (b : bool) (f : T) : T :=
  fun c =>
    match f (Creator b (c_line c) (c_col c) (c_comments c) (c_items c)) with
    | TOk c' => TOk (Creator (c_assignment c) (c_line c') (c_col c') (c_comments c') (c_items c'))
    | TCrash r => TCrash r
    end.
(** [if (creator->assignment())]. *)
Definition if_assignment (f g : T) : T := fun c => if c_assignment c then f c else g c.

(** mri_creator.hpp 47-50 and 53-58: a sexp of its own
    for a node with token [t], built by [f]. *)
Definition append_sub (t : token) (f : T) : T :=
  fun c =>
    match f (new_creator t (c_assignment c)) with
    | TOk c' => push (c_sexp c') c
    | TCrash r => TCrash r
    end.

(** mri_creator.hpp 42-51: [append(node)], where [f] is the node's transform. *)
Definition append_node (n : node) (f : T) : T :=
  match n with
  | N_Nil _ => append_nil
  | _ => append_sub (ntoken n) f
  end.
(** [for (auto node : nodes) creator->append(node)]; the pairs are a node and what
    appending it does. *)
Definition append_all (l : list (node * T)) : T :=
  fold_right (fun x f => snd x >> f) tdone l.
(** block_node.hpp 39-50: [append(body->without_unnecessary_nesting())], the body
    having token [t]. *)
Definition append_body (t : token) (l : list (node * T)) : T :=
  match l with
  | [x] => snd x
  | _ => append_sub t (set_type "block" >> append_all l)
  end.
(** arg_node.hpp 26-39. *)
Definition arg_name (name : option str) (block_arg splat kwsplat : bool) : str :=
  let n := match name with Some n => n | None => [] end in
  if splat then "*"%ch :: n
  else if kwsplat then "*"%ch :: "*"%ch :: n
  else if block_arg then "&"%ch :: n else n.

(** node_with_args.cpp 7-34. *)
Definition append_method_or_block_args (l : list (node * T)) : T :=
  append_sexp
    (set_type "args" >>
     fold_right
       (fun x f =>
          match fst x with
          | N_Arg _ name block_arg splat kwsplat None =>
              append_symbol (arg_name name block_arg splat kwsplat)
          | N_Arg _ _ _ _ _ (Some _) | N_ForwardArgs _ | N_KeywordArg _ _ _
          | N_MultipleAssignmentArg _ _ | N_ShadowArg _ _ => snd x
          | N_Nil _ => append_nil
          | _ => tcrash (PUnreachable "node_with_args.cpp:30")
          end >> f) tdone l).
(** interpolated_shell_node.cpp 8-22, interpolated_symbol_node.cpp 8-22. *)
Definition append_interpolated (l : list (node * T)) : T :=
  match l with
  | [] => tdone
  | (N_String _ s, _) :: l' => append_string s >> append_all l'
  | _ => append_string [] >> append_all l
  end.
(** array_pattern_node.hpp 32-42: an item of an array pattern. *)
Definition array_pattern_item (x : node * T) : node * T :=
  (fst x, match fst x with
          | N_Splat _ None => append_symbol (s2l "*")
          | N_Splat _ (Some (N_Symbol _ name)) => append_symbol ("*"%ch :: name)
          | N_Splat _ (Some _) => tcrash PAssert
          | _ => snd x
          end).
(** multiple_assignment_arg_node.hpp 23-29: an item of a destructured argument. *)
Definition destructuring_item (x : node * T) : node * T :=
  (fst x, match fst x with
          | N_Arg _ name block_arg splat kwsplat _ =>
              append_symbol (arg_name name block_arg splat kwsplat)
          | _ => snd x
          end).
(** interpolated_string_node.cpp 57-65: the leading static strings joined, and the
    nodes after them. *)
Fixpoint static_prefix (acc : str) (l : list (node * T)) : str * list (node * T) :=
  match l with
  | (N_String _ s, _) :: l' => static_prefix (acc ++ s) l'
  | _ => (acc, l)
  end.
(** interpolated_string_node.cpp 47-109. *)
Definition transform_interpolated_string (l : list (node * T)) : T :=
  set_type "dstr" >>
  match l with
  | [] => set_type "str"
  | _ =>
      match static_prefix [] l with
      | (s, []) => append_string s >> set_type "str"
      | (s, l') => append_string s >> append_all l'
      end
  end.
(** assignment_node.cpp 6-31, where [f] is the transform of the identifier and
    [value] appends the value. *)
Definition transform_assignment (identifier : node) (f value : T) : T :=
  (fun c => TOk (Creator (c_assignment c) (tk_line (ntoken identifier)) (tk_col (ntoken identifier))
                   None [])) >>
  match identifier with
  | N_MultipleAssignment _ _ _ => f >> value
  | N_Call _ _ _ _ | N_Colon2 _ _ _ | N_Colon3 _ _ | N_Identifier _ _ | N_SafeCall _ _ _ _ =>
      with_assignment true f >> value
  | _ => tcrash (PUnreachable "assignment_node.cpp:29")
  end.

(** identifier_node.hpp 95-118. *)
Definition transform_identifier_assignment (t : token) : T :=
  (match ty t with
   | T_BareName => set_type "lasgn"
   | T_ClassVariable => set_type "cvdecl"
   | T_Constant | T_ConstantResolution => set_type "cdecl"
   | T_GlobalVariable => set_type "gasgn"
   | T_InstanceVariable => set_type "iasgn"
   | _ => tcrash (PUnreachable "identifier_node.hpp:115")
   end) >>
  append_symbol_ptr (lit t).

(** identifier_node.hpp 59-93. *)
Definition transform_identifier (t : token) (is_lvar : bool) : T :=
  if_assignment (transform_identifier_assignment t)
    (match ty t with
     | T_BareName =>
         if is_lvar then set_type "lvar" >> append_symbol_ptr (lit t)
         else set_type "call" >> append_nil >> append_symbol_ptr (lit t)
     | T_ClassVariable => set_type "cvar" >> append_symbol_ptr (lit t)
     | T_Constant => set_type "const" >> append_symbol_ptr (lit t)
     | T_GlobalVariable => set_type "gvar" >> append_symbol_ptr (lit t)
     | T_InstanceVariable => set_type "ivar" >> append_symbol_ptr (lit t)
     | _ => tcrash (PUnreachable "identifier_node.hpp:91")
     end).

(** call_node.hpp 61-79, given how to append the receiver and the arguments. *)
Definition transform_call (receiver : T) (message : str) (args : T) : T :=
  if_assignment
    (set_type "attrasgn" >> with_assignment false receiver >> append_symbol (message ++ s2l "="))
    (set_type "call" >> receiver >> append_symbol message) >>
  with_assignment false args.

(** rational_node.hpp 26-40, complex_node.hpp 28-41; [site] is the TM_UNREACHABLE at the end. *)
Definition append_number (site : string) (n : node) : T :=
  match n with
  | N_Bignum _ s => push (SBig s)
  | N_Fixnum _ z => append_fixnum z
  | N_Float _ neg s => push (SFloat neg s)
  | _ => tcrash (PUnreachable site)
  end.

(** [doc()] followed by [set_comments] (class_node.cpp 8-10 and alike). *)
Definition doc_comments (t : token) : T :=
  match doc t with Some d => set_comments d | None => tdone end.

(** begin_rescue_node.cpp 14: the token of [$!]. *)
Definition error_info_token (t : token) : token :=
  Tok T_GlobalVariable (Some (s2l "$!")) None 0 [] (tk_line t) (tk_col t) false.

(** Appending the nodes of a list, or a node that may be missing. *)
Local Notation each f l :=
  ((fix go (xs : list node) : list (node * T) :=
      match xs with
      | [] => []
      | x :: xs' => (x, append_node x (f x)) :: go xs'
      end) l).
Local Notation opt f o :=
  (match o with Some x => append_node x (f x) | None => tdone end).

(** The transform functions; the class is in the constructor, the citation at
    its case. *)
Fixpoint transform (n : node) : T :=
  match n with
  (* alias_node.cpp 5-9 *)
  | N_Alias _ a b => set_type "alias" >> append_node a (transform a) >> append_node b (transform b)
  (* arg_node.hpp 60-65 *)
  | N_Arg _ name block_arg splat kwsplat value =>
      set_type "lasgn" >> append_symbol (arg_name name block_arg splat kwsplat) >> (opt transform value)
  (* array_node.hpp 25-29 *)
  | N_Array _ l => set_type "array" >> append_all (each transform l)
  (* array_pattern_node.hpp 27-44 *)
  | N_ArrayPattern _ l =>
      set_type "array_pat" >>
      (match l with [] => tdone | _ => append_nil end) >>
      append_all (map array_pattern_item (each transform l))
  | N_Assignment _ identifier value => transform_assignment identifier (transform identifier) (append_node value (transform value))
  (* back_ref_node.hpp 19-23 *)
  | N_BackRef _ c => set_type "back_ref" >> append_symbol [c]
  (* begin_node.cpp 5-27 *)
  | N_Begin _ body rescues els ens =>
      set_type "rescue" >>
      (match body with (_, []) => tdone | (bt, l) => append_body bt (each transform l) end) >>
      append_all (each transform rescues) >>
      (match els with
       | None | Some (_, []) => tdone
       | Some (bt, l) => append_body bt (each transform l)
       end) >>
      (match ens with
       | None => tdone
       | Some b =>
           (match rescues with [] => set_type "ensure" | _ => wrap "ensure" end) >>
           (match b with (_, []) => append_nil_sexp | (bt, l) => append_body bt (each transform l) end)
       end)
  (* begin_block_node.hpp 21-23 *)
  | N_BeginBlock _ => set_type "preexe"
  (* begin_rescue_node.cpp 8-32 *)
  | N_BeginRescue t name exceptions body =>
      set_type "resbody" >>
      append_sub t
        (set_type "array" >> append_all (each transform exceptions) >>
         match name with
         | None => tdone
         | Some id =>
             append_sub t
               (transform_assignment id (transform id) (append_sub (error_info_token t)
                                 (transform_identifier (error_info_token t) false)))
         end) >>
      (match body with (_, []) => append_nil | (_, l) => append_all (each transform l) end)
  (* bignum_node.hpp 24-27 *)
  | N_Bignum _ s => set_type "lit" >> push (SBig s)
  (* block_node.hpp 46-50 *)
  | N_Block _ l => set_type "block" >> append_all (each transform l)
  (* block_pass_node.hpp 25-28 *)
  | N_BlockPass _ x => set_type "block_pass" >> append_node x (transform x)
  (* break_node.hpp 23-27 *)
  | N_Break _ a => set_type "break" >> (opt transform a)
  | N_Call _ r m args => transform_call (append_node r (transform r)) m (append_all (each transform args))
  (* case_node.hpp 36-45 *)
  | N_Case _ subject nodes els =>
      set_type "case" >> append_node subject (transform subject) >> append_all (each transform nodes) >>
      (match els with Some (bt, l) => append_body bt (each transform l) | None => append_nil end)
  (* case_in_node.hpp 29-37, case_when_node.hpp 29-37 *)
  | N_CaseIn _ x body =>
      set_type "in" >> append_node x (transform x) >> (match body with (_, []) => append_nil | (_, l) => append_all (each transform l) end)
  | N_CaseWhen _ x body =>
      set_type "when" >> append_node x (transform x) >> (match body with (_, []) => append_nil | (_, l) => append_all (each transform l) end)
  (* class_node.cpp 6-20 *)
  | N_Class t name super body =>
      set_type "class" >> doc_comments t >>
      (match name with N_Identifier it _ => append_symbol_ptr (lit it) | _ => append_node name (transform name) end) >>
      append_node super (transform super) >> append_all (each transform (snd body))
  (* colon2_node.hpp 31-39 *)
  | N_Colon2 _ lhs name =>
      set_type "colon2" >> with_assignment false (append_node lhs (transform lhs)) >> append_symbol name >>
      if_assignment (wrap "cdecl") tdone
  (* colon3_node.hpp 24-29 *)
  | N_Colon3 _ name =>
      set_type "colon3" >> append_symbol name >> if_assignment (wrap "cdecl") tdone
  (* complex_node.hpp 21-44 *)
  | N_Complex _ v =>
      set_type "lit" >>
      (match v with N_Rational _ w => append_number "rational_node.hpp:38" w
       | _ => append_number "complex_node.hpp:42" v end) >>
      make_complex_number
  (* constant_node.hpp 21-24 *)
  | N_Constant t => set_type "const" >> append_symbol_ptr (lit t)
  (* def_node.hpp 30-48 *)
  | N_Def t self name args body =>
      (match self with Some s => set_type "defs" >> append_node s (transform s) | None => set_type "defn" end) >>
      doc_comments t >> append_symbol name >> append_method_or_block_args (each transform args) >>
      (match body with (_, []) => append_nil_sexp | (_, l) => append_all (each transform l) end)
  (* defined_node.hpp 25-28 *)
  | N_Defined _ a => set_type "defined" >> append_node a (transform a)
  (* encoding_node.hpp 16-24 *)
  | N_Encoding _ =>
      set_type "colon2" >> append_sexp (set_type "const" >> append_symbol (s2l "Encoding")) >>
      append_symbol (s2l "UTF_8")
  (* end_block_node.hpp 21-23 *)
  | N_EndBlock _ => set_type "postexe"
  (* evaluate_to_string_node.hpp 28-32 *)
  | N_EvaluateToString _ x => set_type "evstr" >> (opt transform x)
  (* false_node.hpp 19-21 *)
  | N_False _ => set_type "false"
  (* fixnum_node.hpp 24-27, float_node.hpp 24-27 *)
  | N_Fixnum _ z => set_type "lit" >> append_fixnum z
  | N_Float _ neg s => set_type "lit" >> push (SFloat neg s)
  (* for_node.cpp 5-11 *)
  | N_For _ e vars body =>
      set_type "for" >> append_node e (transform e) >> with_assignment true (append_node vars (transform vars)) >>
      (match body with (_, []) => tdone | (bt, l) => append_body bt (each transform l) end)
  (* forward_args_node.hpp 21-23 *)
  | N_ForwardArgs _ => set_type "forward_args"
  (* hash_node.hpp 26-33 *)
  | N_Hash _ bare l => set_type (if bare then "bare_hash" else "hash") >> append_all (each transform l)
  (* hash_pattern_node.hpp 21-26 *)
  | N_HashPattern _ l => set_type "hash_pat" >> append_nil >> append_all (each transform l)
  | N_Identifier t is_lvar => transform_identifier t is_lvar
  (* if_node.hpp 31-36 *)
  | N_If _ c a b => set_type "if" >> append_node c (transform c) >> append_node a (transform a) >> append_node b (transform b)
  (* infix_op_node.hpp 34-39 *)
  | N_InfixOp _ l op r => set_type "call" >> append_node l (transform l) >> append_symbol op >> append_node r (transform r)
  (* interpolated_regexp_node.cpp 6-17 *)
  | N_InterpolatedRegexp _ l o =>
      set_type "dregx" >>
      (match l with
       | [] => tdone
       | N_String _ s :: l' => append_string s >> append_all (each transform l')
       | _ => append_all (each transform l)
       end) >>
      (if o =? 0 then tdone else append_fixnum (Z.of_N o))
  | N_InterpolatedShell _ l => set_type "dxstr" >> append_interpolated (each transform l)
  | N_InterpolatedSymbol _ l | N_InterpolatedSymbolKey _ l => set_type "dsym" >> append_interpolated (each transform l)
  (* interpolated_string_node.cpp 47-109 *)
  | N_InterpolatedString _ l =>
      transform_interpolated_string
        ((fix go (l : list node) : list (node * T) :=
            match l with
            | [] => []
            | x :: l' =>
                (x, match x with
                    | N_EvaluateToString _
                        (Some (N_InterpolatedString _ [N_EvaluateToString _ _ as e])) =>
                        append_node e (transform e)
                    | _ => append_node x (transform x)
                    end) :: go l'
            end) l)
  (* iter_node.hpp 29-38 *)
  | N_Iter _ call has_args args body =>
      set_type "iter" >> append_node call (transform call) >>
      (if has_args then append_method_or_block_args (each transform args) else append_fixnum 0) >>
      (match body with (_, []) => tdone | (bt, l) => append_body bt (each transform l) end)
  (* keyword_arg_node.hpp 20-23 *)
  | N_KeywordArg _ name value =>
      set_type "lasgn" >> append_symbol name >> (opt transform value) >> set_type "kwarg"
  (* keyword_rest_pattern_node.hpp 32-38 *)
  | N_KeywordRestPattern _ name =>
      set_type "kwrest" >>
      append_symbol ("*"%ch :: "*"%ch :: match name with Some n => n | None => [] end)
  (* keyword_splat_node.hpp 28-32 *)
  | N_KeywordSplat _ x => set_type "kwsplat" >> (opt transform x)
  (* logical_and_node.hpp 30-34, logical_or_node.hpp 30-34 *)
  | N_LogicalAnd _ l r => set_type "and" >> append_node l (transform l) >> append_node r (transform r)
  | N_LogicalOr _ l r => set_type "or" >> append_node l (transform l) >> append_node r (transform r)
  (* match_node.cpp 5-17 *)
  | N_Match _ regexp None _ => set_type "match" >> append_node regexp (transform regexp)
  | N_Match _ regexp (Some a) on_left =>
      set_type (if on_left then "match2" else "match3") >> append_node regexp (transform regexp) >> append_node a (transform a)
  (* module_node.cpp 6-19 *)
  | N_Module t name body =>
      set_type "module" >> doc_comments t >>
      (match name with N_Identifier it _ => append_symbol_ptr (lit it) | _ => append_node name (transform name) end) >>
      append_all (each transform (snd body))
  (* multiple_assignment_node.hpp 24-29, mri_creator.hpp 53-58 *)
  | N_MultipleAssignment t l _ =>
      with_assignment true (set_type "masgn" >> append_sub t (set_type "array" >> append_all (each transform l)))
  (* multiple_assignment_arg_node.hpp 21-30 *)
  | N_MultipleAssignmentArg _ l =>
      set_type "masgn" >>
      append_all (map destructuring_item (each transform l))
  (* next_node.hpp 28-32 *)
  | N_Next _ a => set_type "next" >> (opt transform a)
  (* nil_node.hpp 19-21, nil_sexp_node.hpp 19-21 *)
  | N_Nil _ | N_NilSexp _ => set_type "nil"
  (* not_node.hpp 27-32 *)
  | N_Not _ e => set_type "call" >> append_node e (transform e) >> append_symbol (s2l "!")
  (* not_match_node.hpp 27-30 *)
  | N_NotMatch _ e => set_type "not" >> append_node e (transform e)
  (* nth_ref_node.hpp 19-22 *)
  | N_NthRef _ z => set_type "nth_ref" >> append_fixnum z
  (* op_assign_node.cpp 6-34 *)
  | N_OpAssign t op name v =>
      match name with
      | N_Identifier it lv =>
          with_assignment true (transform_identifier it lv) >>
          append_sub t (transform_call (append_node name (transform name)) op (append_node v (transform v)))
      | N_Colon2 _ _ _ | N_Colon3 _ _ =>
          set_type "op_asgn" >> append_node name (transform name) >> append_symbol op >> append_node v (transform v)
      | _ => tcrash (PUnreachable "op_assign_node.cpp:32")
      end
  (* op_assign_accessor_node.hpp 39-65 *)
  | N_OpAssignAccessor _ op receiver message v args safe =>
      if str_eqb message (s2l "[]=") then
        set_type "op_asgn1" >> append_node receiver (transform receiver) >>
        (match args with
         | [] => append_nil
         | _ => append_sexp (set_type "arglist" >> append_all (each transform args))
         end) >>
        append_symbol op >> append_node v (transform v)
      else
        match args with
        | [] =>
            set_type (if safe then "safe_op_asgn2" else "op_asgn2") >> append_node receiver (transform receiver) >>
            append_symbol message >> append_symbol op >> append_node v (transform v)
        | _ => tcrash PAssert
        end
  (* op_assign_and_node.hpp 22-32, op_assign_or_node.hpp 22-32 *)
  | N_OpAssignAnd t name v =>
      set_type "op_asgn_and" >> append_node name (transform name) >> append_sub t (transform_assignment name (transform name) (append_node v (transform v)))
  | N_OpAssignOr t name v =>
      set_type "op_asgn_or" >> append_node name (transform name) >> append_sub t (transform_assignment name (transform name) (append_node v (transform v)))
  (* pin_node.hpp 25-28 *)
  | N_Pin _ x => set_type "pin" >> append_node x (transform x)
  (* range_node.hpp 31-45 *)
  | N_Range _ a b excl =>
      match a, b with
      | N_Fixnum _ x, N_Fixnum _ y => set_type "lit" >> push (SRange x y excl)
      | _, _ => set_type (if excl then "dot3" else "dot2") >> append_node a (transform a) >> append_node b (transform b)
      end
  (* rational_node.hpp 20-24 *)
  | N_Rational _ v => set_type "lit" >> append_number "rational_node.hpp:38" v >> make_rational_number
  (* redo_node.hpp 16-18, retry_node.hpp 16-18 *)
  | N_Redo _ => set_type "redo"
  | N_Retry _ => set_type "retry"
  (* regexp_node.hpp 27-30 *)
  | N_Regexp _ s o => set_type "lit" >> push (SRegexp s o)
  (* return_node.hpp 25-29 *)
  | N_Return _ v =>
      set_type "return" >> (match v with N_Nil _ => tdone | _ => append_node v (transform v) end)
  (* safe_call_node.hpp 23-29 *)
  | N_SafeCall _ r m args =>
      transform_call (append_node r (transform r)) m (append_all (each transform args)) >>
      if_assignment (set_type "safe_attrasgn") (set_type "safe_call")
  (* sclass_node.hpp 26-31 *)
  | N_Sclass _ k body => set_type "sclass" >> append_node k (transform k) >> append_all (each transform (snd body))
  (* self_node.hpp 19-21 *)
  | N_Self _ => set_type "self"
  (* shadow_arg_node.hpp 31-35 *)
  | N_ShadowArg _ names =>
      set_type "shadow" >> fold_right (fun s f => append_symbol s >> f) tdone names
  (* shell_node.hpp 24-27 *)
  | N_Shell _ s => set_type "xstr" >> append_string s
  (* splat_node.hpp 30-34 *)
  | N_Splat _ x => set_type "splat" >> (opt transform x)
  (* splat_value_node.hpp 23-26 *)
  | N_SplatValue _ v => set_type "svalue" >> append_node v (transform v)
  (* stabby_proc_node.hpp 20-22 *)
  | N_StabbyProc _ _ _ => set_type "lambda"
  (* string_node.hpp 34-37 *)
  | N_String _ s => set_type "str" >> append_string s
  (* super_node.hpp 27-39 *)
  | N_Super _ args parens =>
      match args with
      | [] => set_type (if parens then "super" else "zsuper")
      | _ => set_type "super" >> append_all (each transform args)
      end
  (* symbol_node.hpp 22-25 *)
  | N_Symbol _ s | N_SymbolKey _ s => set_type "lit" >> append_symbol s
  (* to_array_node.hpp 25-28 *)
  | N_ToArray _ v => set_type "to_ary" >> append_node v (transform v)
  (* true_node.hpp 19-21 *)
  | N_True _ => set_type "true"
  (* unary_op_node.hpp 31-35 *)
  | N_UnaryOp _ op r => set_type "call" >> append_node r (transform r) >> append_symbol op
  (* undef_node.hpp 23-29 *)
  | N_Undef _ args => set_type "undef" >> append_all (each transform args)
  (* while_node.hpp 31-45 *)
  | N_Until _ c body pre =>
      set_type "until" >> append_node c (transform c) >>
      (match body with (_, []) => append_nil | (bt, l) => append_body bt (each transform l) end) >>
      (if pre then append_true else append_false)
  | N_While _ c body pre =>
      set_type "while" >> append_node c (transform c) >>
      (match body with (_, []) => append_nil | (bt, l) => append_body bt (each transform l) end) >>
      (if pre then append_true else append_false)
  (* valias_node.hpp 27-31 *)
  | N_Valias _ a b => set_type "valias" >> append_symbol a >> append_symbol b
  (* yield_node.hpp 21-27 *)
  | N_Yield _ args => set_type "yield" >> append_all (each transform args)
  end.

(** natalie_parser.cpp 30-34 ([node_to_ruby]). *)
Definition node_sexp (n : node) : sexp + pcrash :=
  match transform n (new_creator (ntoken n) false) with
  | TOk c => inl (c_sexp c)
  | TCrash r => inr r
  end.

(** What [NatalieParser.parse] does with its argument. *)
Inductive outcome :=
| Parsed (s : sexp)
| SyntaxError (e : serror)
| LexerCrash (r : reason)
| ParserCrash (r : pcrash)
| TransformCrash (r : pcrash)
| OutOfFuel.

(** natalie_parser.cpp 36-49 ([parse_on_instance]) with parser.hpp 51-56: lexing,
    parsing, transforming.  [fuel] bounds the number of tokens. *)
Definition parse (fuel : nat) (file input : str) : outcome :=
  match tokens fuel input with
  | Ok toks =>
      match parse_tokens file toks with
      | POk tree _ =>
          match node_sexp tree with
          | inl s => Parsed s
          | inr r => TransformCrash r
          end
      | PSyn e => SyntaxError e
      | PCrash r => ParserCrash r
      | PNoFuel => OutOfFuel
      end
  | Crash r => LexerCrash r
  | NoFuel => OutOfFuel
  end.

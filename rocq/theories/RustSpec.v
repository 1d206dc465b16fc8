(** Specification of coverage marks in Rust source. *)
From Verif Require Import Base OMap Models Unicode RustParser.
Open Scope N_scope.

(** A `requirement_covered!` call: the names and positions of the enclosing scopes, outermost
    first, its own position and its tokens. *)
Record mark := mkMark {
  mk_scopes : list (str * span_pos);
  mk_pos : span_pos;
  mk_tokens : list token
}.

(** The name of an impl block. *)
Definition impl_name (ty : str) (trait_ : option (bool * str)) : str :=
  match trait_ with
  | None => ty
  | Some (neg, t) => L "(" ++ ty ++ L " as " ++ (if neg : bool then L "!" else []) ++ t ++ L ")"
  end.

(** All calls in a tree, in source order. *)
Fixpoint marks (sc : list (str * span_pos)) (n : node) : list mark :=
  match n with
  | NScope _ name a kids => flat_map (marks (sc ++ [(name, a)])) kids
  | NImpl ty tr a kids => flat_map (marks (sc ++ [(impl_name ty tr, a)])) kids
  | NExprMacro [(name, a)] tokens =>
      if eqb name (L "requirement_covered") then [mkMark sc a tokens] else []
  | NExprMacro _ _ => []
  | NItemMacro _ _ => []
  | NOther kids => flat_map (marks sc) kids
  end.

Section RustSpec.
  Context (debug_tokens : list token -> str) (p : path).

  Definition at_pos (a : span_pos) : location := new_with_line_and_column p (fst a) (snd a).

  (** Well-formed calls: an identifier, a string, or an identifier and a string.  A quoted text
      loses all quotes. *)
  Definition quoted (t : str) : Prop := exists b, t = 34 :: b /\ exists c, t = c ++ [34].
  Definition unquoted (t : str) : str := filter (fun c => negb (c =? 34)) t.
  Inductive refers : list token -> str -> option str -> Prop :=
  | ref_ident id a : refers [TokIdent id a] id None
  | ref_string t a : quoted t -> refers [TokOther t a] (unquoted t) None
  | ref_titled id a sep t : quoted (tok_text t) ->
      refers [TokIdent id a; sep; t] id (Some (unquoted (tok_text t))).

  (** Malformed calls and their errors. *)
  Inductive malformed (a : span_pos) : list token -> error -> Prop :=
  | mal_none : malformed a [] (EFormat (at_pos a) (L "requirement_covered!() has no arguments"))
  | mal_single t b : ~ quoted t ->
      malformed a [TokOther t b]
        (EFormat (at_pos b) (L "requirement_covered!() single argument is not an identifier"))
  | mal_title id b sep t : ~ quoted (tok_text t) ->
      malformed a [TokIdent id b; sep; t]
        (EFormat (at_pos (tok_pos t)) (L "requirement_covered!() 2nd argument is not String"))
  | mal_first x b sep t :
      malformed a [TokOther x b; sep; t]
        (EFormat (at_pos b) (L "requirement_covered!() 1st argument is not an identifier"))
  | mal_many ts : length ts <> 0%nat -> length ts <> 1%nat -> length ts <> 3%nat ->
      malformed a ts
        (EFormat (at_pos a) (L "requirement_covered!() called with more than 2 argument/token " ++ debug_tokens ts)).

  Definition mark_id (m : mark) : str := join (L "::") (map fst (mk_scopes m)).
  (** A well-formed call with its reference. *)
  Definition reference_of (m : mark) (x : reference) : Prop :=
    refers (mk_tokens m) (ref_id x) (ref_title x) /\ ref_location x = at_pos (mk_pos m).

  (** A requirement made of consecutive marks of one scope; [ms] in source order. *)
  Definition group_of (ms : list (mark * reference)) (r : requirement) : Prop :=
    exists m x ms' a sc,
      ms = (m, x) :: ms' /\ mk_scopes m = sc ++ [a] /\
      (forall y, In y ms -> mark_id (fst y) = req_id r) /\
      r = mkRequirement (mark_id m) None (at_pos (snd a)) (map snd ms) [] [] [].

  (** Neighbours differ. *)
  Fixpoint neighbours_differ (l : list requirement) : Prop :=
    match l with
    | r1 :: ((r2 :: _) as l') => req_id r1 <> req_id r2 /\ neighbours_differ l'
    | _ => True
    end.
End RustSpec.

(** Every call is either a reference or an error; both in source order. *)
Inductive sorted_out (debug_tokens : list token -> str) (p : path)
  : list mark -> list (mark * reference) -> list error -> Prop :=
| so_nil : sorted_out debug_tokens p [] [] []
| so_ref m x ms xs es :
    reference_of p m x -> sorted_out debug_tokens p ms xs es ->
    sorted_out debug_tokens p (m :: ms) ((m, x) :: xs) es
| so_err m e ms xs es :
    malformed debug_tokens p (mk_pos m) (mk_tokens m) e -> sorted_out debug_tokens p ms xs es ->
    sorted_out debug_tokens p (m :: ms) xs (e :: es).

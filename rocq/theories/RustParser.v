(** Model of /repo/src/parsers/rust.rs.

    The crate syn is outside the model: [syn_parse] (syn::parse_file) is an arbitrary function
    from source text to a syntax tree or an error, and so is the Debug output of tokens.  A tree
    ([node]) contains what the visitor of rust.rs reacts to; all other syntax is [NOther], with
    its parts in the order in which syn::visit visits them.  Log output is left out. *)
From Verif Require Import Base OMap Models Unicode Utf8.
Open Scope N_scope.

(** Start of a proc_macro2::Span: line and column *)
Definition span_pos : Type := N * N.

(** proc_macro2::TokenTree: an identifier or something else, with its text *)
Inductive token :=
| TokIdent (text : str) (at_ : span_pos)
| TokOther (text : str) (at_ : span_pos).
Definition tok_text (t : token) : str := match t with TokIdent x _ | TokOther x _ => x end.
Definition tok_pos (t : token) : span_pos := match t with TokIdent _ a | TokOther _ a => a end.

(** The syntax elements whose name makes a scope (visitor functions of rust.rs:194-210, 234-259) *)
Inductive scope_kind := KFn | KImplMethod | KTrait | KTraitMethod | KMod.

Inductive node :=
| NScope (k : scope_kind) (name : str) (at_ : span_pos) (kids : list node)
  (* impl block: text of the type, [Some (negative, trait)], position of the type *)
| NImpl (ty : str) (trait_ : option (bool * str)) (at_ : span_pos) (kids : list node)
  (* macro in expression position: path segments and tokens *)
| NExprMacro (segments : list (str * span_pos)) (tokens : list token)
  (* macro in item position; the visitor does not look at it *)
| NItemMacro (segments : list (str * span_pos)) (tokens : list token)
| NOther (kids : list node).

(** rust.rs:57-63 *)
Record rs_state := mkRs {
  rs_requirements : list requirement;
  rs_errors : list error;
  rs_scope : list str;         (* innermost last *)
  rs_locations : list location (* innermost last *)
}.

Section RustParser.
  Context (syn_parse : str -> node + (span_pos * str)) (debug_tokens : list token -> str) (p : path).

  (** rust.rs:262-265 *)
  Definition location_from_span (a : span_pos) : location :=
    new_with_line_and_column p (fst a) (snd a).

  Definition QUOTE : chr := 34.
  (** rust.rs:97-99, 118-119: starts and ends with a quote; all quotes are removed *)
  Definition unquote (t : str) : option str :=
    if starts_with_c QUOTE t && ends_with_c QUOTE t
    then Some (filter (fun c => negb (c =? QUOTE)) t) else None.

  Definition rs_push_error (s : rs_state) (e : error) : rs_state :=
    mkRs (rs_requirements s) (rs_errors s ++ [e]) (rs_scope s) (rs_locations s).
  Definition rs_set_requirements (s : rs_state) (l : list requirement) : rs_state :=
    mkRs l (rs_errors s) (rs_scope s) (rs_locations s).

  (** rust.rs:77-153: the referenced id and title, or an error *)
  Definition read_mark (at_ : span_pos) (tokens : list token) : (str * option str) + error :=
    match tokens with
    | [] => inr (EFormat (location_from_span at_) (L "requirement_covered!() has no arguments"))
    | [t] =>
        match t with
        | TokIdent id _ => inl (id, None)
        | TokOther x a =>
            match unquote x with
            | Some id => inl (id, None)
            | None => inr (EFormat (location_from_span a)
                             (L "requirement_covered!() single argument is not an identifier"))
            end
        end
    | [t0; _; t2] =>
        match t0 with
        | TokIdent id _ =>
            match unquote (tok_text t2) with
            | Some title => inl (id, Some title)
            | None => inr (EFormat (location_from_span (tok_pos t2))
                             (L "requirement_covered!() 2nd argument is not String"))
            end
        | TokOther _ a =>
            inr (EFormat (location_from_span a) (L "requirement_covered!() 1st argument is not an identifier"))
        end
    | _ => inr (EFormat (location_from_span at_)
                  (L "requirement_covered!() called with more than 2 argument/token " ++ debug_tokens tokens))
    end.

  Definition add_cover (r : requirement) (x : reference) : requirement :=
    mkRequirement (req_id r) (req_title r) (req_location r) (req_covers r ++ [x]) (req_depends r)
      (req_tags r) (req_attributes r).

  (** [slice.last()], [slice.last_mut()] *)
  Definition slice_last {A} (l : list A) : option A :=
    match rev l with x :: _ => Some x | [] => None end.

  (** rust.rs:154-182; `Rc::get_mut(last).unwrap()` succeeds because the requirement is not yet
      shared *)
  Definition add_reference (s : rs_state) (x : reference) : outcome rs_state :=
    let id := join (L "::") (rs_scope s) in
    let fresh :=
      let* loc := unwrap (slice_last (rs_locations s)) in
      Done (rs_set_requirements s (rs_requirements s ++ [mkRequirement id None loc [x] [] [] []])) in
    match slice_last (rs_requirements s) with
    | Some r =>
        if eqb (req_id r) id
        then Done (rs_set_requirements s (removelast (rs_requirements s) ++ [add_cover r x]))
        else fresh
    | None => fresh
    end.

  (** rust.rs:66-184; a macro with another name is not looked into (188-192) *)
  Definition parse_macro (s : rs_state) (segments : list (str * span_pos)) (tokens : list token)
    : outcome rs_state :=
    match segments with
    | [(name, a)] =>
        if eqb name (L "requirement_covered") then
          match read_mark a tokens with
          | inr e => Done (rs_push_error s e)
          | inl (id, title) => add_reference s (mkReference id title (location_from_span a))
          end
        else Done s
    | _ => Done s
    end.

  (** push and pop around the visit of the parts, rust.rs:195-200 etc. *)
  Definition rs_enter (s : rs_state) (name : str) (a : span_pos) : rs_state :=
    mkRs (rs_requirements s) (rs_errors s) (rs_scope s ++ [name]) (rs_locations s ++ [location_from_span a]).
  Definition rs_leave (s : rs_state) : outcome rs_state :=
    let* _ := unwrap (slice_last (rs_locations s)) in
    let* _ := unwrap (slice_last (rs_scope s)) in
    Done (mkRs (rs_requirements s) (rs_errors s) (removelast (rs_scope s)) (removelast (rs_locations s))).

  (** rust.rs:213-225 *)
  Definition impl_symbol (ty : str) (trait_ : option (bool * str)) : str :=
    match trait_ with
    | Some (true, t) => L "(" ++ ty ++ L " as !" ++ t ++ L ")"
    | Some (false, t) => L "(" ++ ty ++ L " as " ++ t ++ L ")"
    | None => ty
    end.

  (** rust.rs:187-260 *)
  Fixpoint visit (n : node) (s : rs_state) : outcome rs_state :=
    let visit_all := fix visit_all (l : list node) (s : rs_state) : outcome rs_state :=
      match l with
      | [] => Done s
      | n' :: l' => let* s' := visit n' s in visit_all l' s'
      end in
    match n with
    | NScope _ name a kids => let* s' := visit_all kids (rs_enter s name a) in rs_leave s'
    | NImpl ty tr a kids => let* s' := visit_all kids (rs_enter s (impl_symbol ty tr) a) in rs_leave s'
    | NExprMacro segments tokens => parse_macro s segments tokens
    | NItemMacro _ _ => Done s
    | NOther kids => visit_all kids s
    end.

  (** rust.rs:19-55 *)
  Definition rust_parse (r : reader) : outcome (list requirement * list error) :=
    match read_to_string r with
    | RErr e => Done ([], [EIo p e])
    | ROk source =>
        match syn_parse source with
        | inr (a, msg) => Done ([], [EFormat (location_from_span a) msg])
        | inl file =>
            let* s := visit file (mkRs [] [] [] []) in
            Done (rs_requirements s, rs_errors s)
        end
    end.
End RustParser.

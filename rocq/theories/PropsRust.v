(** Properties C27, C28, C53, C54: coverage marks in Rust source.
    Vocabulary: RustSpec.v, small notions in RustFacts.v and RustCor.v; model: RustParser.v.
    [syn_parse] and [debug_tokens] are arbitrary. *)
From Verif Require Import Base OMap Models Unicode Utf8 RustParser RustSpec RustFacts RustCor.
Open Scope N_scope.

(** C27: every call gives a reference in its scope or an error, in source order. *)
Theorem C27_exact : forall syn_parse debug_tokens p r source file reqs errs,
  read_to_string r = ROk source -> syn_parse source = inl file ->
  rust_parse syn_parse debug_tokens p r = Done (reqs, errs) ->
  exists gs, Forall2 (group_of p) gs reqs /\ neighbours_differ reqs /\
    sorted_out debug_tokens p (marks [] file) (concat gs) errs.
Proof. intros syn_parse debug_tokens p. exact (rust_exact debug_tokens p syn_parse). Qed.
Print Assumptions C27_exact.

Theorem C27_covers_in_order : forall p gs reqs,
  Forall2 (group_of p) gs reqs -> flat_map req_covers reqs = map snd (concat gs).
Proof. exact groups_covers. Qed.
Print Assumptions C27_covers_in_order.

(** It panics exactly if a well-formed call is outside any scope. *)
Theorem C27_panics : forall syn_parse debug_tokens p r,
  (forall source file, read_to_string r = ROk source -> syn_parse source = inl file -> names_ok (marks [] file)) ->
  rust_parse syn_parse debug_tokens p r = Panic <->
  exists source file, read_to_string r = ROk source /\ syn_parse source = inl file /\
    exists m, In m (marks [] file) /\ outside m.
Proof. intros syn_parse debug_tokens p. exact (rust_panics debug_tokens p syn_parse). Qed.
Print Assumptions C27_panics.

Theorem C27_unreadable : forall syn_parse debug_tokens p r,
  (forall e, read_to_string r = RErr e -> rust_parse syn_parse debug_tokens p r = Done ([], [EIo p e])) /\
  (forall source a msg, read_to_string r = ROk source -> syn_parse source = inr (a, msg) ->
     rust_parse syn_parse debug_tokens p r = Done ([], [EFormat (at_pos p a) msg])).
Proof. intros syn_parse debug_tokens p. exact (rust_unreadable debug_tokens p syn_parse). Qed.
Print Assumptions C27_unreadable.

(** The tree of rust.rs:285-293 (test) with a malformed call added. *)
Definition id_tok (s : string) : token := TokIdent (L s) (0, 0).
Definition cov (line : N) (ts : list token) : node := NExprMacro [(L "requirement_covered", (line, 24))] ts.
Definition sample_tree : node :=
  NOther [NScope KMod (L "module_name") (2, 16)
    [NImpl (L "Struct") (Some (false, L "Trait")) (3, 31)
      [NScope KImplMethod (L "foo") (4, 23)
        [NOther [cov 5 [id_tok "REQ_ID"]]; cov 6 []; NExprMacro [(L "println", (7, 1))] [id_tok "x"];
         cov 8 [id_tok "REQ_B"; TokOther (L ",") (8, 1); TokOther (literal (L "Title")) (8, 2)]]]]].
Definition no_debug (_ : list token) : str := [].
Definition parse_tree (t : node) := rust_parse (fun _ => inl t) no_debug (L "src/f.rs") (mkReader [] None).

Example C27_example :
  parse_tree sample_tree =
  Done ([mkRequirement (L "module_name::(Struct as Trait)::foo") None
           (new_with_line_and_column (L "src/f.rs") 4 23)
           [mkReference (L "REQ_ID") None (new_with_line_and_column (L "src/f.rs") 5 24);
            mkReference (L "REQ_B") (Some (L "Title")) (new_with_line_and_column (L "src/f.rs") 8 24)] [] [] []],
        [EFormat (new_with_line_and_column (L "src/f.rs") 6 24) (L "requirement_covered!() has no arguments")]).
Proof. vm_compute. reflexivity. Qed.
Example C27_example_names : names_ok (marks [] sample_tree).
Proof.
  intros m Hm b Hb. vm_compute in Hm.
  repeat (destruct Hm as [<-|Hm]; [vm_compute in Hb; repeat (destruct Hb as [<-|Hb]; [discriminate|]); destruct Hb|]).
  destruct Hm.
Qed.
Example C27_example_panic : parse_tree (NOther [cov 1 [id_tok "REQ_A"]]) = Panic.
Proof. vm_compute. reflexivity. Qed.

(** C28: ids are unique if the calls of each scope are consecutive... *)
Theorem C28_unique_ids : forall syn_parse debug_tokens p r source file reqs errs,
  read_to_string r = ROk source -> syn_parse source = inl file ->
  rust_parse syn_parse debug_tokens p r = Done (reqs, errs) ->
  (forall xs, sorted_out debug_tokens p (marks [] file) xs errs -> contiguous xs) ->
  NoDup (map req_id reqs).
Proof. exact rust_unique. Qed.
Print Assumptions C28_unique_ids.

(** The sample above meets the condition. *)
Example C28_example : forall xs errs,
  sorted_out no_debug (L "src/f.rs") (marks [] sample_tree) xs errs -> contiguous xs.
Proof.
  intros xs errs H. apply contiguous_short.
  vm_compute in H.
  inversion H as [|? ? ? xs1 ? _ H1|? ? ? ? ? _ H1]; subst; clear H;
  inversion H1 as [|? ? ? xs2 ? [R _] H2|? ? ? ? ? _ H2]; subst; clear H1; try (inversion R; fail);
  inversion H2 as [|? ? ? xs3 ? _ H3|? ? ? ? ? _ H3]; subst; clear H2;
  inversion H3; subst; cbn [length]; lia.
Qed.

(** ... but not in general: a nested function splits the calls of the function around it.
    `fn a() { requirement_covered!(R1); fn b() { requirement_covered!(R2); }
    requirement_covered!(R3); }` *)
Definition nested : node :=
  NOther [NScope KFn (L "a") (1, 3)
    [cov 2 [id_tok "R1"]; NScope KFn (L "b") (3, 3) [cov 4 [id_tok "R2"]]; cov 5 [id_tok "R3"]]].
Theorem C28_unique_ids_refuted :
  ~ forall syn_parse debug_tokens p r reqs errs,
      rust_parse syn_parse debug_tokens p r = Done (reqs, errs) -> NoDup (map req_id reqs).
Proof.
  intros H.
  assert (E : exists reqs errs, parse_tree nested = Done (reqs, errs) /\
                map req_id reqs = [L "a"; L "a::b"; L "a"]).
  { do 2 eexists. split; vm_compute; reflexivity. }
  destruct E as (reqs & errs & E1 & E2). apply H in E1. rewrite E2 in E1.
  inversion E1 as [|? ? H1 _]; subst. apply H1. right. left. reflexivity.
Qed.
Print Assumptions C28_unique_ids_refuted.

(** C53: exactly the unqualified calls in expression position count... *)
Theorem C53_counted : forall syn_parse debug_tokens p r source file reqs errs,
  read_to_string r = ROk source -> syn_parse source = inl file ->
  rust_parse syn_parse debug_tokens p r = Done (reqs, errs) ->
  exists xs, sorted_out debug_tokens p (all_calls false false [] file) xs errs /\
    flat_map req_covers reqs = map snd xs.
Proof. exact parsed_counted. Qed.
Print Assumptions C53_counted.

(** ... calls in item position ... *)
Theorem C53_item_position_refuted :
  ~ forall syn_parse debug_tokens p r source file reqs errs,
      read_to_string r = ROk source -> syn_parse source = inl file ->
      rust_parse syn_parse debug_tokens p r = Done (reqs, errs) ->
      exists xs, sorted_out debug_tokens p (all_calls true false [] file) xs errs /\
        flat_map req_covers reqs = map snd xs.
Proof.
  intros H.
  pose (t := NOther [NScope KMod (L "m") (1, 4)
               [NItemMacro [(L "requirement_covered", (2, 0))] [id_tok "REQ_A"]]]).
  destruct (H (fun _ => inl t) no_debug (L "src/f.rs") (mkReader [] None) [] t [] [] eq_refl eq_refl eq_refl)
    as (xs & H1 & H2).
  destruct xs; [|discriminate]. inversion H1.
Qed.
Print Assumptions C53_item_position_refuted.

(** ... and calls with a qualified path do not. *)
Theorem C53_qualified_refuted :
  ~ forall syn_parse debug_tokens p r source file reqs errs,
      read_to_string r = ROk source -> syn_parse source = inl file ->
      rust_parse syn_parse debug_tokens p r = Done (reqs, errs) ->
      exists xs, sorted_out debug_tokens p (all_calls false true [] file) xs errs /\
        flat_map req_covers reqs = map snd xs.
Proof.
  intros H.
  pose (t := NOther [NScope KMod (L "m") (1, 4)
               [NExprMacro [(L "crate", (2, 0)); (L "requirement_covered", (2, 7))] [id_tok "REQ_A"]]]).
  destruct (H (fun _ => inl t) no_debug (L "src/f.rs") (mkReader [] None) [] t [] [] eq_refl eq_refl eq_refl)
    as (xs & H1 & H2).
  destruct xs; [|discriminate]. inversion H1.
Qed.
Print Assumptions C53_qualified_refuted.

(** C54: a call with a title becomes a reference with the text of the literal without its quotes ... *)
Theorem C54_any_title : forall syn_parse debug_tokens p r source file reqs errs m id a sep body b,
  read_to_string r = ROk source -> syn_parse source = inl file ->
  rust_parse syn_parse debug_tokens p r = Done (reqs, errs) ->
  In m (marks [] file) -> mk_tokens m = [TokIdent id a; sep; TokOther (literal body) b] ->
  exists req, In req reqs /\
    In (mkReference id (Some (filter (fun c => negb (c =? 34)) body)) (at_pos p (mk_pos m))) (req_covers req).
Proof. exact parsed_title. Qed.
Print Assumptions C54_any_title.

(** ... this is the value of the literal if it has no escapes ... *)
Theorem C54_plain_title : forall syn_parse debug_tokens p r source file reqs errs m id a sep body b v,
  read_to_string r = ROk source -> syn_parse source = inl file ->
  rust_parse syn_parse debug_tokens p r = Done (reqs, errs) ->
  In m (marks [] file) -> mk_tokens m = [TokIdent id a; sep; TokOther (literal body) b] ->
  ~ In 92 body -> unescape body = Some v ->
  exists req, In req reqs /\ In (mkReference id (Some v) (at_pos p (mk_pos m))) (req_covers req).
Proof. exact parsed_plain_title. Qed.
Print Assumptions C54_plain_title.

Definition titled (body : str) : node :=
  NOther [NScope KFn (L "f") (1, 3)
    [cov 2 [id_tok "REQ"; TokOther (L ",") (2, 1); TokOther (literal body) (2, 2)]]].
Example C54_example : ~ In 92 (L "Title String") /\ unescape (L "Title String") = Some (L "Title String") /\
  match parse_tree (titled (L "Title String")) with
  | Done (reqs, errs) => map ref_title (flat_map req_covers reqs) = [Some (L "Title String")] /\ errs = []
  | Panic => False
  end.
Proof.
  split; [|split; vm_compute; auto].
  intros H. vm_compute in H. repeat (destruct H as [H|H]; [discriminate|]). destruct H.
Qed.

(** ... others are garbled: the literal for a<quote>b becomes a<backslash>b. *)
Theorem C54_title_refuted :
  ~ forall syn_parse debug_tokens p r source file reqs errs m id a sep body b v,
  read_to_string r = ROk source -> syn_parse source = inl file ->
  rust_parse syn_parse debug_tokens p r = Done (reqs, errs) ->
  In m (marks [] file) -> mk_tokens m = [TokIdent id a; sep; TokOther (literal body) b] ->
  unescape body = Some v ->
  exists req, In req reqs /\ In (mkReference id (Some v) (at_pos p (mk_pos m))) (req_covers req).
Proof.
  intros H. pose (t := titled [97; 92; 34; 98]).
  assert (E : exists req, parse_tree t = Done ([req], []) /\ map ref_title (req_covers req) = [Some [97; 92; 98]]).
  { eexists. split; vm_compute; reflexivity. }
  destruct E as (req & E1 & E2).
  destruct (H (fun _ => inl t) no_debug (L "src/f.rs") (mkReader [] None) [] t _ _ _ (L "REQ") (0, 0) _ [97; 92; 34; 98] (2, 2)
              [97; 34; 98] eq_refl eq_refl E1 (or_introl eq_refl) eq_refl eq_refl) as (q & [<-|[]] & Hin).
  apply (in_map ref_title) in Hin. rewrite E2 in Hin. destruct Hin as [K|[]]. discriminate.
Qed.
Print Assumptions C54_title_refuted.

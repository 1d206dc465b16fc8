(** The order of the messages of the tracer. *)
From Verif Require Import Base OMap Models Tracer TraceSpec TraceFacts TraceCor.

(** The pair (id that is referred to, id of the requirement) of a CoversUnknownRequirement error. *)
Definition covers_pair (e : error) : list (requirement_id * requirement_id) :=
  match e with ECoversUnknownRequirement r u _ => [(u, req_id r)] | _ => [] end.
(** The pair (id of the requirement, id that is referred to) of a DependOnUnknownRequirement error. *)
Definition depends_pair (e : error) : list (requirement_id * requirement_id) :=
  match e with EDependOnUnknownRequirement r l _ => [(req_id r, l)] | _ => [] end.

Section Order.
  Context (g : graph) (WF : graph_wf g) (tg : traced_graph) (TR : trace g = Done tg).

  Lemma covers_pairs pc : (forall u l, In (u, l) pc -> dangling_covers g u l) ->
    flat_map covers_pair (flat_map (covers_error g) pc) = pc /\ Forall (fun e => is_covers_unknown e = true) (flat_map (covers_error g) pc).
  Proof.
    induction pc as [|[u l] pc IH]; intros H; [split; [reflexivity|constructor]|].
    destruct IH as [I1 I2]; [intros u0 l0 Hi; apply H; right; exact Hi|].
    destruct (H u l (or_introl eq_refl)) as ((low & c & Hf & Hc & He) & _).
    cbn [flat_map]. unfold covers_error at 1 3. cbn [fst snd]. rewrite Hf.
    destruct (find_ref_some u (req_covers low) c Hc He) as (r & _ & Hr). rewrite Hr.
    cbn [app flat_map covers_pair]. rewrite I1. split.
    - f_equal. f_equal. unfold first_of in Hf. apply find_some in Hf. destruct Hf as [_ Hf]. destruct (eqb_spec (req_id low) l); congruence.
    - constructor; [reflexivity|exact I2].
  Qed.

  Lemma depends_pairs pd : (forall u l, In (u, l) pd -> dangling_depends g u l) ->
    flat_map depends_pair (flat_map (depends_error g) pd) = pd /\ Forall (fun e => is_depends_unknown e = true) (flat_map (depends_error g) pd).
  Proof.
    induction pd as [|[u l] pd IH]; intros H; [split; [reflexivity|constructor]|].
    destruct IH as [I1 I2]; [intros u0 l0 Hi; apply H; right; exact Hi|].
    destruct (H u l (or_introl eq_refl)) as ((up & d & Hf & Hd & He) & _).
    cbn [flat_map]. unfold depends_error at 1 3. cbn [fst snd]. rewrite Hf.
    destruct (find_ref_some l (req_depends up) d Hd He) as (r & _ & Hr). rewrite Hr.
    cbn [app flat_map depends_pair]. rewrite I1. split.
    - f_equal. f_equal. unfold first_of in Hf. apply find_some in Hf. destruct Hf as [_ Hf]. destruct (eqb_spec (req_id up) u); congruence.
    - constructor; [reflexivity|exact I2].
  Qed.

  Theorem error_order : exists ecs eds,
    tg_errors tg = dup_errors g ++ flat_map (relation_errors g) (g_relations g) ++ ecs ++ eds /\
    Forall (fun e => is_covers_unknown e = true) ecs /\ ssorted (flat_map covers_pair ecs) /\
    Forall (fun e => is_depends_unknown e = true) eds /\ ssorted (flat_map depends_pair eds).
  Proof.
    destruct (trace_done g WF tg TR) as (pc & pd & _ & _ & _ & Hs & Hc & Hs' & Hd & He).
    destruct (covers_pairs pc (fun u l => proj1 (Hc u l))) as [E1 F1].
    destruct (depends_pairs pd (fun u l => proj1 (Hd u l))) as [E2 F2].
    exists (flat_map (covers_error g) pc), (flat_map (depends_error g) pd).
    rewrite E1, E2. auto.
  Qed.
End Order.

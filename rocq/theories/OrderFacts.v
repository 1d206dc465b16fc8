(** Facts for C106: the order of scalar values is that of the bytes. *)
From Coq Require Import ZArith ZifyN Sorted.
From Verif Require Import Base OMap Models Sort Tracer TraceSpec TraceCor TraceOrder Utf8 Utf8Spec Utf8Facts OrderSpec.
Open Scope N_scope.

Ltac Zify.zify_post_hook ::= Z.div_mod_to_equations.

Lemma before_app p x y : bytes_before x y -> bytes_before (p ++ x) (p ++ y).
Proof. induction p; cbn; intros H; [exact H|]. apply before_same. auto. Qed.

Lemma before_irrefl x : ~ bytes_before x x.
Proof. induction x as [|a x IH]; intros H; inversion H; subst; [lia|auto]. Qed.

Lemma before_asym x y : bytes_before x y -> ~ bytes_before y x.
Proof.
  induction 1 as [b r|a b r r' Hab|a r r' H IH]; intros H'; inversion H'; subst; try lia.
  auto.
Qed.

Lemma before_cons a b x y : a < b \/ (a = b /\ bytes_before x y) -> bytes_before (a :: x) (b :: y).
Proof. intros [H|[-> H]]; [apply before_byte, H|apply before_same, H]. Qed.

Lemma char_before c d r r' : scalar c = true -> scalar d = true -> c < d ->
  bytes_before (encode_char c ++ r) (encode_char d ++ r').
Proof.
  intros Hc Hd H. apply scalar_spec in Hc, Hd. unfold encode_char.
  destruct (N.ltb_spec c 128), (N.ltb_spec d 128); try (exfalso; lia);
  destruct (N.ltb_spec c 2048), (N.ltb_spec d 2048); try (exfalso; lia);
  destruct (N.ltb_spec c 65536), (N.ltb_spec d 65536); try (exfalso; lia);
  cbn [app]; try (apply before_byte; lia).
  - apply before_cons. assert (c / 64 < d / 64 \/ c / 64 = d / 64) as [E|E] by lia; [left; lia|right; split; [lia|]].
    apply before_byte. lia.
  - apply before_cons. assert (c / 4096 < d / 4096 \/ c / 4096 = d / 4096) as [E|E] by lia; [left; lia|right; split; [lia|]].
    apply before_cons. assert (c / 64 < d / 64 \/ c / 64 = d / 64) as [E'|E'] by lia; [left; lia|right; split; [lia|]].
    apply before_byte. lia.
  - apply before_cons. assert (c / 262144 < d / 262144 \/ c / 262144 = d / 262144) as [E|E] by lia; [left; lia|right; split; [lia|]].
    apply before_cons. assert (c / 4096 < d / 4096 \/ c / 4096 = d / 4096) as [E'|E'] by lia; [left; lia|right; split; [lia|]].
    apply before_cons. assert (c / 64 < d / 64 \/ c / 64 = d / 64) as [E''|E''] by lia; [left; lia|right; split; [lia|]].
    apply before_byte. lia.
Qed.

Lemma encode_char_some c : exists b r, encode_char c = b :: r.
Proof. unfold encode_char. destruct (c <? 128), (c <? 2048), (c <? 65536); eauto. Qed.

Lemma encode_before s : forall t, forallb scalar s = true -> forallb scalar t = true ->
  lt s t -> bytes_before (encode s) (encode t).
Proof.
  unfold lt. induction s as [|c s IH]; intros [|d t] Hs Ht H; try discriminate H.
  - cbn [encode flat_map]. destruct (encode_char_some d) as (b & r & ->). cbn [app]. constructor.
  - cbn [forallb] in Hs, Ht. apply andb_true_iff in Hs as [Hc Hs]. apply andb_true_iff in Ht as [Hd Ht].
    change (encode (c :: s)) with (encode_char c ++ encode s). change (encode (d :: t)) with (encode_char d ++ encode t).
    cbn in H. destruct (N.compare_spec c d) as [->|E|E]; try discriminate H.
    + apply before_app, IH; assumption.
    + apply char_before; assumption.
Qed.

Lemma utf8_is bs t : utf8 bs t -> bs = encode t /\ forallb scalar t = true.
Proof. intros H. apply decode_utf8 in H. apply decode_sound, H. Qed.

Theorem order_bytes bs s bs' t : utf8 bs s -> utf8 bs' t -> (lt s t <-> bytes_before bs bs').
Proof.
  intros H H'. apply utf8_is in H as [-> Hs]. apply utf8_is in H' as [-> Ht]. split.
  - apply encode_before; assumption.
  - intros H. destruct (lt_total s t) as [E|[->|E]]; [exact E| |].
    + destruct (before_irrefl _ H).
    + destruct (before_asym _ _ H). apply encode_before; assumption.
Qed.

Lemma sorted_pair {A} (R : A -> A -> Prop) l : StronglySorted R l ->
  forall l1 x l2 y l3, l = l1 ++ x :: l2 ++ y :: l3 -> R x y.
Proof.
  intros H l1 x l2 y l3 ->. induction l1 as [|a l1 IH]; cbn in H; inversion H; subst; [|auto].
  match goal with F : Forall _ _ |- _ => rewrite Forall_forall in F; apply F end.
  apply in_or_app. right. left. reflexivity.
Qed.

Lemma sorted_bytes {A} (text : A -> str) l : sorted_by text l -> in_byte_order text l.
Proof.
  intros H l1 x l2 y l3 bx by' E Hx Hy Hb. apply (order_bytes _ _ _ _ Hy Hx) in Hb.
  pose proof (sorted_pair _ _ H _ _ _ _ _ E) as P. cbn in P. exact (proj2 (not_lt_le _ _) P Hb).
Qed.

Lemma strict_bytes l : ssorted l -> in_strict_byte_order l.
Proof.
  intros H l1 x l2 y l3 bx by' E Hx Hy. apply (order_bytes _ _ _ _ Hx Hy).
  exact (sorted_pair _ _ H _ _ _ _ _ E).
Qed.

Lemma lt_text s t : lt s t -> text_before s t.
Proof. intros H bx by' Hx Hy. apply (order_bytes _ _ _ _ Hx Hy), H. Qed.

Lemma lt_pair x y : lt x y -> pair_before x y.
Proof.
  unfold lt, pair_before. destruct x as [a b], y as [a' b']. cbn [cmp Ord_prod fst snd].
  destruct (cmp a a') eqn:E; try discriminate; intros H.
  - apply cmp_eq in E. right. split; [exact E|]. apply lt_text, H.
  - left. apply lt_text, E.
Qed.

Lemma lt_texts x : forall y, lt x y -> texts_before x y.
Proof.
  unfold lt. induction x as [|s x IH]; intros [|t y] H; try discriminate H; [constructor|].
  change (cmp (s :: x) (t :: y)) with (match cmp s t with Eq => cmp x y | r => r end) in H.
  destruct (cmp s t) eqn:E; try discriminate.
  - apply cmp_eq in E. subst. apply texts_same, IH, H.
  - apply texts_text, lt_text, E.
Qed.

Lemma lt_relation x y : lt x y -> relation_before x y.
Proof.
  unfold lt, relation_before. destruct x as [a b], y as [a' b']. cbn [cmp Ord_relation Ord_prod fst snd rel_upper rel_lower].
  destruct (cmp a a') eqn:E; try discriminate; intros H.
  - apply cmp_eq in E. right. split; [exact E|]. apply lt_texts, H.
  - left. apply lt_text, E.
Qed.

Lemma sorted_ordered {A} `{Ord A} (before : A -> A -> Prop) l :
  (forall x y, lt x y -> before x y) -> StronglySorted lt l -> ordered before l.
Proof. intros I S l1 x l2 y l3 E. apply I. exact (sorted_pair _ _ S _ _ _ _ _ E). Qed.

Lemma only_unknown (g : graph) e :
  In e (flat_map (fun e => flat_map (dup_errors_of g (fst e)) (ovalues (art_requirements (snd e)))) (g_artefacts g)) \/
  In e (flat_map (fun rel => flat_map (link_errors g rel) (links g rel) ++ unused_errors g rel) (g_relations g)) ->
  covers_pair e = [] /\ depends_pair e = [].
Proof.
  intros [H|H]; apply in_flat_map in H as (x & _ & H).
  - apply in_flat_map in H as (r & _ & H). unfold dup_errors_of in H.
    destruct (defined_before _ _ _); [|destruct H]. destruct (first_of _ _); [|destruct H].
    destruct H as [<-|[]]. split; reflexivity.
  - apply in_app_or in H as [H|H].
    + apply in_flat_map in H as (l & _ & H). unfold link_errors, wrong_title_errors, missing_title_errors in H.
      repeat match type of H with
             | In _ (_ ++ _) => apply in_app_or in H; destruct H as [H|H]
             | In _ (match ?m with _ => _ end) => destruct m
             | In _ (_ :: _) => destruct H as [<-|H]
             | In _ [] => destruct H
             end; try (split; reflexivity); destruct (lk_dir l); split; reflexivity.
    + unfold unused_errors in H. destruct (is_nil _); [|destruct H]. destruct H as [<-|[]]. split; reflexivity.
Qed.

Lemma flat_map_none {A B} (f : A -> list B) l : (forall x, In x l -> f x = []) -> flat_map f l = [].
Proof. induction l as [|a l IH]; intros H; cbn; [reflexivity|]. rewrite (H a (or_introl eq_refl)). apply IH. intros x Hx. apply H. right. exact Hx. Qed.

Theorem unknown_order g tg : graph_wf g -> trace g = Done tg ->
  ordered pair_before (flat_map covers_pair (tg_errors tg)) /\
  ordered pair_before (flat_map depends_pair (tg_errors tg)).
Proof.
  intros WF TR. destruct (error_order g WF tg TR) as (ecs & eds & -> & H1 & H2 & H3 & H4).
  unfold dup_errors. rewrite !flat_map_app.
  rewrite !(flat_map_none covers_pair (flat_map _ _)) by (intros x Hx; apply (only_unknown g); auto).
  rewrite !(flat_map_none depends_pair (flat_map _ _)) by (intros x Hx; apply (only_unknown g); auto).
  rewrite (flat_map_none covers_pair eds).
  2:{ intros x Hx. rewrite Forall_forall in H3. specialize (H3 x Hx). destruct x; discriminate || reflexivity. }
  rewrite (flat_map_none depends_pair ecs).
  2:{ intros x Hx. rewrite Forall_forall in H1. specialize (H1 x Hx). destruct x; discriminate || reflexivity. }
  cbn [app]. rewrite app_nil_r.
  split; [exact (sorted_ordered pair_before _ lt_pair H2)|exact (sorted_ordered pair_before _ lt_pair H4)].
Qed.

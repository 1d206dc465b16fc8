(** Decoding is exact. *)
From Coq Require Import ZArith Lia.
From Verif Require Import Base OMap Models Unicode Location Utf8 Paths MdParser MonoParser RustParser Tracer
  Show Sort Serialize MdFmt Formatters Controller Config ConfigSpec.
Open Scope N_scope.

Lemma mapM_Forall2 {A B} (f : A -> option B) (R : A -> B -> Prop) :
  (forall a b, f a = Some b <-> R a b) -> forall l l', mapM f l = Some l' <-> Forall2 R l l'.
Proof.
  intros H l. induction l as [|a l IH]; intros l'; cbn [mapM].
  - split; intros X; [inversion X; constructor|inversion X; reflexivity].
  - split.
    + intros X. destruct (f a) as [b|] eqn:Ea; [|discriminate]. destruct (mapM f l) as [bs|] eqn:El; [|discriminate].
      inversion X; subst. constructor; [apply H; exact Ea|apply IH; reflexivity].
    + intros X. inversion X as [|? b ? bs Hb Hbs]; subst. apply H in Hb. apply IH in Hbs. rewrite Hb, Hbs. reflexivity.
Qed.

Lemma tostr_iff v s : tostr v = Some s <-> v = TStr s.
Proof. destruct v; cbn; split; intros H; inversion H; reflexivity. Qed.
Lemma tobool_iff v b : tobool v = Some b <-> v = TBool b.
Proof. destruct v; cbn; split; intros H; inversion H; reflexivity. Qed.
Lemma tou32_iff v n : tou32 v = Some n <-> is_version v n.
Proof.
  unfold is_version. destruct v; cbn [tou32]; try (split; [discriminate|intros [H _]; discriminate]).
  destruct ((0 <=? z) && (z <? 4294967296))%Z eqn:E.
  - apply andb_true_iff in E. destruct E as [E1 E2]. apply Z.leb_le in E1. apply Z.ltb_lt in E2. split.
    + intros H. inversion H. split; [f_equal; lia|lia].
    + intros [H _]. inversion H. f_equal. lia.
  - split; [discriminate|]. intros [H H2]. inversion H. subst z. exfalso. apply andb_false_iff in E.
    destruct E as [E|E]; [apply Z.leb_gt in E; lia|apply Z.ltb_ge in E; lia].
Qed.
Lemma tolist_iff {A} (f : toml -> option A) (R : toml -> A -> Prop) v l :
  (forall a b, f a = Some b <-> R a b) -> (tolist f v = Some l <-> exists vs, v = TArr vs /\ Forall2 R vs l).
Proof.
  intros H. destruct v; cbn [tolist]; try (split; [discriminate|intros (vs & X & _); discriminate]).
  rewrite (mapM_Forall2 f R H). split; [eauto|]. intros (vs & X & Y). inversion X; subst. exact Y.
Qed.
Lemma texts_iff v l : tolist tostr v = Some l <-> texts v l.
Proof.
  rewrite (tolist_iff tostr (fun v s => v = TStr s)) by exact tostr_iff. unfold texts. split.
  - intros (vs & -> & H). f_equal. induction H; [reflexivity|]. cbn [map]. congruence.
  - intros ->. eexists. split; [reflexivity|]. induction l; constructor; auto.
Qed.
Lemma tomap_iff {A} (f : toml -> option A) (R : toml -> A -> Prop) v js :
  (forall a b, f a = Some b <-> R a b) ->
  (tomap f v = Some js <-> exists t, v = TTable t /\ Forall2 (fun e j => fst e = fst j /\ R (snd e) (snd j)) t js).
Proof.
  intros H. destruct v; cbn [tomap]; try (split; [discriminate|intros (vs & X & _); discriminate]).
  etransitivity; [apply (mapM_Forall2 _ (fun (e : str * toml) (j : str * A) => fst e = fst j /\ R (snd e) (snd j)))|].
  2:{ split; [eauto|]. intros (t & X & Y). inversion X; subst. exact Y. }
  - intros [k x] [k' y]. cbn [fst snd]. split.
    + intros X. destruct (f x) as [y0|] eqn:E; [|discriminate]. cbn in X. inversion X; subst. split; [reflexivity|apply H; exact E].
    + intros [-> X]. apply H in X. rewrite X. reflexivity.
Qed.

Lemma must_iff {A} (f : toml -> option A) (R : toml -> A -> Prop) name m a :
  (forall v b, f v = Some b <-> R v b) -> (must f name m = Some a <-> exists v, oget (L name) m = Some v /\ R v a).
Proof.
  intros H. unfold must. destruct (oget (L name) m) as [v|].
  - rewrite H. split; [eauto|]. intros (v' & X & Y). inversion X; subst. exact Y.
  - split; [discriminate|]. intros (v' & X & _). discriminate.
Qed.
Lemma may_iff {A} (f : toml -> option A) (R : toml -> A -> Prop) name m o :
  (forall v b, f v = Some b <-> R v b) -> (may f name m = Some o <-> entry_is m name R o).
Proof.
  intros H. unfold may, entry_is. destruct (oget (L name) m) as [v|].
  - destruct o as [a|].
    + destruct (f v) as [b|] eqn:E; cbn [option_map].
      * apply H in E. split.
        -- intros X. inversion X; subst. eauto.
        -- intros (v' & X & Y). inversion X; subst. apply H in Y. apply H in E. congruence.
      * split; [discriminate|]. intros (v' & X & Y). inversion X; subst. apply H in Y. congruence.
    + destruct (f v); split; discriminate.
  - destruct o as [a|]; split; intros X; try reflexivity; try (inversion X; fail); try discriminate.
    destruct X as (v & X & _). discriminate.
Qed.

Lemma unit_variant_iff v name : unit_variant v = Some (L name) <-> variant v name.
Proof.
  unfold variant. split.
  - destruct v as [s| | | | |[|[k x] [|y m]]]; cbn [unit_variant]; try discriminate.
    + intros H. inversion H. auto.
    + destruct x as [| | | | |[|z m]]; try discriminate. intros H. inversion H. auto.
    + destruct x as [| | | | |[|z m']]; discriminate.
  - intros [-> | ->]; reflexivity.
Qed.
Lemma variant_inj v a b : variant v a -> variant v b -> L a = L b.
Proof. intros H1 H2. apply unit_variant_iff in H1. apply unit_variant_iff in H2. congruence. Qed.

Lemma to_parser_iff v p : to_parser v = Some p <-> variant v (names_of_parser p).
Proof.
  rewrite <- unit_variant_iff. unfold to_parser. destruct (unit_variant v) as [k|]; [|split; discriminate].
  destruct (eqb_spec k (L "Markdown")) as [->|N1]; [destruct p; split; intros H; try reflexivity; discriminate|].
  destruct (eqb_spec k (L "Rust")) as [->|N2]; [destruct p; split; intros H; try reflexivity; discriminate|].
  destruct (eqb_spec k (L "MonoRequirement")) as [->|N3]; [destruct p; split; intros H; try reflexivity; discriminate|].
  destruct (eqb_spec k (L "Json")) as [->|N4]; [destruct p; split; intros H; try reflexivity; discriminate|].
  split; [discriminate|]. intros H. inversion H. destruct p; cbn in *; congruence.
Qed.
Lemma to_query_iff v p : to_query v = Some p <-> variant v (names_of_query p).
Proof.
  rewrite <- unit_variant_iff. unfold to_query. destruct (unit_variant v) as [k|]; [|split; discriminate].
  destruct (eqb_spec k (L "Parse")) as [->|N1]; [destruct p; split; intros H; try reflexivity; discriminate|].
  destruct (eqb_spec k (L "Trace")) as [->|N2]; [destruct p; split; intros H; try reflexivity; discriminate|].
  split; [discriminate|]. intros H. inversion H. destruct p; cbn in *; congruence.
Qed.
Definition plain_format (v : toml) : option format :=
  match unit_variant v with
  | Some k =>
      if eqb k (L "GnuError") then Some GnuError
      else if eqb k (L "Json") then Some Json
      else if eqb k (L "Markdown") then Some Markdown
      else if eqb k (L "Tags") then Some Tags
      else None
  | None => None
  end.
Lemma plain_format_iff v f : plain_format v = Some f <->
  match f with GnuError => variant v "GnuError" | Json => variant v "Json" | Markdown => variant v "Markdown"
             | Tags => variant v "Tags" | _ => False end.
Proof.
  assert (HV : forall n, variant v n <-> unit_variant v = Some (L n)) by (intros n; symmetry; apply unit_variant_iff).
  unfold plain_format. destruct f; rewrite ?HV; destruct (unit_variant v) as [k|]; try (split; [discriminate|tauto]); try (split; discriminate);
  (destruct (eqb_spec k (L "GnuError")) as [->|N1]; [split; intros H; try reflexivity; try discriminate; try contradiction|];
  destruct (eqb_spec k (L "Json")) as [->|N2]; [split; intros H; try reflexivity; try discriminate; try contradiction|];
  destruct (eqb_spec k (L "Markdown")) as [->|N3]; [split; intros H; try reflexivity; try discriminate; try contradiction|];
  destruct (eqb_spec k (L "Tags")) as [->|N4]; [split; intros H; try reflexivity; try discriminate; try contradiction|];
  split; [discriminate|]; intros H; try contradiction; inversion H; congruence).
Qed.
Lemma to_format_iff v f : to_format v = Some f <-> says_format v f.
Proof.
  assert (HC : (exists k s, v = TTable [(k, TStr s)]) \/
               (to_format v = plain_format v /\ forall k s, v <> TTable [(k, TStr s)])).
  { destruct v as [s|z|b|t|l|m].
    1-5: right; split; [reflexivity|discriminate].
    destruct m as [|[k x] m]; [right; split; [reflexivity|discriminate]|].
    destruct x; try (right; split; [reflexivity|intros; congruence]).
    destruct m; [left; eauto|right; split; [reflexivity|intros; congruence]]. }
  destruct HC as [(k & s & ->)|[-> HN]].
  - cbn [to_format]. assert (HV : forall n, ~ variant (TTable [(k, TStr s)]) n) by (intros n [X|X]; discriminate).
    split.
    + destruct (eqb_spec k (L "TemplateFile")) as [->|N1]; [intros H; inversion H; reflexivity|].
      destruct (eqb_spec k (L "TemplateString")) as [->|N2]; [intros H; inversion H; reflexivity|discriminate].
    + intros H. destruct f; cbn [says_format] in H; try (exfalso; exact (HV _ H)); inversion H; subst; reflexivity.
  - rewrite plain_format_iff. destruct f; cbn [says_format]; try tauto; split; try tauto; intros H; exact (HN _ _ H).
Qed.

Lemma to_relation_iff v r : to_relation v = Some r <-> says_relation v r.
Proof.
  unfold says_relation. destruct v as [s|z|b|t|l|m]; cbn [to_relation];
    try (split; [discriminate|intros [(m' & X & _)|(l' & X & _)]; discriminate]).
  - split.
    + destruct l as [|a [|b [|c l]]]; try discriminate. intros H. destruct (tostr a) as [u|] eqn:Ea; [|discriminate].
      destruct (tolist tostr b) as [x|] eqn:Eb; [|discriminate]. inversion H; subst. apply tostr_iff in Ea. subst a.
      apply texts_iff in Eb. right. exists b. auto.
    + intros [(m' & X & _)|(l' & X & H)]; [discriminate|]. inversion X; subst. apply texts_iff in H. cbn [tostr]. rewrite H.
      destruct r; reflexivity.
  - split.
    + intros H. left. exists m. split; [reflexivity|]. destruct (must tostr "upper" m) as [u|] eqn:Eu; [|discriminate].
      destruct (must (tolist tostr) "lower" m) as [l|] eqn:El; [|discriminate]. inversion H; subst.
      apply (must_iff _ _ _ _ _ tostr_iff) in Eu. destruct Eu as (v & Hv & ->).
      apply (must_iff _ _ _ _ _ texts_iff) in El. cbn [rel_upper rel_lower]. auto.
    + intros [(m' & X & Hu & Hl)|(l' & X & _)]; [|discriminate]. inversion X; subst m'.
      apply (must_iff _ _ _ _ _ texts_iff) in Hl. rewrite Hl. unfold must. rewrite Hu. destruct r; reflexivity.
Qed.

Lemma to_artefact_iff v a : to_artefact v = Some a <-> says_artefact v a.
Proof.
  unfold says_artefact. destruct v as [s|z|b|t|l|m]; cbn [to_artefact];
    try (split; [discriminate|intros [(m' & ? & ? & X & _)|(? & ? & ? & ? & X & _)]; discriminate]).
  - split.
    + destruct l as [|a1 [|a2 [|a3 [|a4 [|a5 [|a6 l]]]]]]; try discriminate. intros H.
      destruct (tostr a1) as [i|] eqn:E1; [|discriminate]. destruct (tolist tostr a2) as [p|] eqn:E2; [|discriminate].
      destruct (to_parser a3) as [x|] eqn:E3; [|discriminate]. destruct (tobool a4) as [d|] eqn:E4; [|discriminate].
      destruct (tobool a5) as [t|] eqn:E5; [|discriminate]. inversion H; subst.
      apply tostr_iff in E1. apply texts_iff in E2. apply to_parser_iff in E3. apply tobool_iff in E4. apply tobool_iff in E5.
      subst. right. exists a2, a3, d, t. auto.
    + intros [(m' & ? & ? & X & _)|(ps & p & d & t & X & H1 & H2 & H3 & H4)]; [discriminate|]. inversion X; subst.
      apply texts_iff in H1. apply to_parser_iff in H2. cbn [tostr tobool]. rewrite H1, H2. destruct a; cbn in *. subst. reflexivity.
  - split.
    + intros H. left. destruct (must tostr "id" m) as [i|] eqn:E1; [|discriminate].
      destruct (must (tolist tostr) "paths" m) as [p|] eqn:E2; [|discriminate].
      destruct (must to_parser "parser" m) as [x|] eqn:E3; [|discriminate].
      destruct (may tobool "ignore_derived_requirements" m) as [d|] eqn:E4; [|discriminate].
      destruct (may tobool "reference_with_title" m) as [t|] eqn:E5; [|discriminate]. inversion H; subst.
      apply (must_iff _ _ _ _ _ tostr_iff) in E1. destruct E1 as (v1 & E1 & ->).
      apply (must_iff _ _ _ _ _ texts_iff) in E2. destruct E2 as (v2 & E2 & E2').
      apply (must_iff _ _ _ _ _ to_parser_iff) in E3. destruct E3 as (v3 & E3 & E3').
      apply (may_iff _ _ _ _ _ tobool_iff) in E4. apply (may_iff _ _ _ _ _ tobool_iff) in E5.
      exists m, v2, v3. cbn. repeat (split; [first [reflexivity|assumption]|]). assumption.
    + intros [(m' & ps & p & X & H1 & H2 & H3 & H4 & H5 & H6 & H7)|(? & ? & ? & ? & X & _)]; [|discriminate].
      inversion X; subst m'. apply (may_iff _ _ _ _ _ tobool_iff) in H6. apply (may_iff _ _ _ _ _ tobool_iff) in H7.
      rewrite H6, H7. apply texts_iff in H3. apply to_parser_iff in H5. unfold must. rewrite H1, H2, H4, H3, H5.
      destruct a; reflexivity.
Qed.

Lemma to_job_iff v j : to_job v = Some j <-> says_job v j.
Proof.
  unfold says_job. destruct v as [s|z|b|t|l|m]; cbn [to_job];
    try (split; [discriminate|intros [(m' & ? & ? & X & _)|(? & ? & ? & X & _)]; discriminate]).
  - split.
    + destruct l as [|a1 [|a2 [|a3 [|a4 [|a5 l]]]]]; try discriminate. intros H.
      destruct (to_query a1) as [q|] eqn:E1; [|discriminate]. destruct (to_format a2) as [f|] eqn:E2; [|discriminate].
      destruct (tostr a3) as [x|] eqn:E3; [|discriminate]. destruct (tobool a4) as [s|] eqn:E4; [|discriminate].
      inversion H; subst. apply to_query_iff in E1. apply to_format_iff in E2. apply tostr_iff in E3. apply tobool_iff in E4.
      subst. right. exists a1, a2, s. auto.
    + intros [(m' & ? & ? & X & _)|(q & f & s & X & H1 & H2 & H3)]; [discriminate|]. inversion X; subst.
      apply to_query_iff in H1. apply to_format_iff in H2. cbn [tostr tobool]. rewrite H1, H2. destruct j; cbn in *. subst. reflexivity.
  - split.
    + intros H. left. destruct (must to_query "query" m) as [q|] eqn:E1; [|discriminate].
      destruct (must to_format "format" m) as [f|] eqn:E2; [|discriminate].
      destruct (must tostr "file" m) as [x|] eqn:E3; [|discriminate].
      destruct (may tobool "set_return_code" m) as [s|] eqn:E4; [|discriminate]. inversion H; subst.
      apply (must_iff _ _ _ _ _ to_query_iff) in E1. destruct E1 as (v1 & E1 & E1').
      apply (must_iff _ _ _ _ _ to_format_iff) in E2. destruct E2 as (v2 & E2 & E2').
      apply (must_iff _ _ _ _ _ tostr_iff) in E3. destruct E3 as (v3 & E3 & ->).
      apply (may_iff _ _ _ _ _ tobool_iff) in E4.
      exists m, v1, v2. cbn. repeat (split; [first [reflexivity|assumption]|]). assumption.
    + intros [(m' & q & f & X & H1 & H2 & H3 & H4 & H5 & H6)|(? & ? & ? & X & _)]; [|discriminate].
      inversion X; subst m'. apply (may_iff _ _ _ _ _ tobool_iff) in H6.
      rewrite H6. apply to_query_iff in H2. apply to_format_iff in H4. unfold must. rewrite H1, H2, H3, H4, H5. destruct j; reflexivity.
Qed.

Lemma to_config_iff m c : to_config m = Some c <-> says_config m c.
Proof.
  assert (LA : forall v l, tolist to_artefact v = Some l <-> exists vs, v = TArr vs /\ Forall2 says_artefact vs l)
    by (intros; apply tolist_iff; exact to_artefact_iff).
  assert (LR : forall v l, tolist to_relation v = Some l <-> exists vs, v = TArr vs /\ Forall2 says_relation vs l)
    by (intros; apply tolist_iff; exact to_relation_iff).
  assert (LJ : forall v js, tomap to_job v = Some js <->
     exists t, v = TTable t /\ Forall2 (fun e j => fst e = fst j /\ says_job (snd e) (snd j)) t js)
    by (intros; apply tomap_iff; exact to_job_iff).
  unfold to_config, says_config. split.
  - intros H. destruct (may tou32 "version" m) as [v|] eqn:E1; [|discriminate].
    destruct (must (tolist to_artefact) "artefacts" m) as [a|] eqn:E2; [|discriminate].
    destruct (must (tolist to_relation) "relations" m) as [r|] eqn:E3; [|discriminate].
    destruct (may (tomap to_job) "jobs" m) as [j|] eqn:E4; [|discriminate].
    destruct (may (tolist tostr) "default_jobs" m) as [d|] eqn:E5; [|discriminate]. inversion H; subst. cbn [cf_version cf_artefacts cf_relations cf_jobs cf_default_jobs].
    apply (may_iff _ _ _ _ _ tou32_iff) in E1. apply (may_iff _ _ _ _ _ LJ) in E4. apply (may_iff _ _ _ _ _ texts_iff) in E5.
    apply (must_iff _ _ _ _ _ LA) in E2. apply (must_iff _ _ _ _ _ LR) in E3.
    destruct E2 as (v2 & E2 & l2 & -> & F2). destruct E3 as (v3 & E3 & l3 & -> & F3).
    split; [exact E1|]. split; [eauto|]. split; [eauto|]. split; assumption.
  - intros (H1 & (l2 & H2 & F2) & (l3 & H3 & F3) & H4 & H5).
    apply (may_iff _ _ _ _ _ tou32_iff) in H1. apply (may_iff _ _ _ _ _ LJ) in H4. apply (may_iff _ _ _ _ _ texts_iff) in H5.
    rewrite H1, H4, H5. unfold must. rewrite H2, H3.
    rewrite (proj2 (LA (TArr l2) (cf_artefacts c))) by eauto. rewrite (proj2 (LR (TArr l3) (cf_relations c))) by eauto.
    destruct c; reflexivity.
Qed.

(** ** Writing *)
Lemma names_distinct (a b : string) : (if string_dec a b then false else true) = true -> L a <> L b.
Proof. destruct (string_dec a b) as [|N]; [discriminate|]. intros _ H. apply N. clear N.
  revert b H. induction a as [|x a IH]; intros [|y b] H; cbn in H; try discriminate; [reflexivity|].
  injection H. intros H1 H2. f_equal; [|apply IH; exact H1].
  apply (f_equal ascii_of_N) in H2. rewrite !ascii_N_embedding in H2. exact H2.
Qed.
Lemma oget_opt_same {A} name (f : A -> toml) o m : oget (L name) m = None ->
  oget (L name) (opt_entry name f o m) = option_map f o.
Proof. intros H. destruct o; cbn [opt_entry option_map]; [apply oget_oins_same|exact H]. Qed.
Lemma oget_opt_other {A} k name (f : A -> toml) o m : k <> L name -> oget k (opt_entry name f o m) = oget k m.
Proof. intros H. destruct o; cbn [opt_entry]; [apply oget_oins_other; exact H|reflexivity]. Qed.

Ltac keys :=
  repeat first
    [ rewrite oget_opt_other by (apply names_distinct; reflexivity)
    | rewrite oget_oins_other by (apply names_distinct; reflexivity)
    | rewrite oget_oins_same
    | rewrite oget_opt_same; [|keys; reflexivity] ].

Lemma entry_written {A} m name (R : toml -> A -> Prop) (f : A -> toml) o :
  oget (L name) m = option_map f o -> (forall a, o = Some a -> R (f a) a) -> entry_is m name R o.
Proof. intros H1 H2. unfold entry_is. destruct o as [a|]; [|exact H1]. exists (f a). auto. Qed.

Lemma write_format_says f : says_format (write_format f) f.
Proof. destruct f; cbn; unfold variant; auto. Qed.
Lemma write_relation_says r : says_relation (write_relation r) r.
Proof.
  left. eexists. split; [reflexivity|]. split; [keys; reflexivity|]. eexists. split; [keys; reflexivity|reflexivity].
Qed.
Lemma write_artefact_says a : says_artefact (write_artefact a) a.
Proof.
  left. do 3 eexists. split; [reflexivity|]. split; [keys; reflexivity|]. split; [keys; reflexivity|].
  split; [reflexivity|]. split; [keys; reflexivity|]. split; [left; reflexivity|].
  split; apply (entry_written _ _ _ TBool); try (intros; reflexivity); keys; reflexivity.
Qed.
Lemma write_job_says j : says_job (write_job j) j.
Proof.
  left. do 3 eexists. split; [reflexivity|]. split; [keys; reflexivity|]. split; [left; reflexivity|].
  split; [keys; reflexivity|]. split; [apply write_format_says|]. split; [keys; reflexivity|].
  apply (entry_written _ _ _ TBool); try (intros; reflexivity); keys; reflexivity.
Qed.
Lemma Forall2_map_l {A B} (f : B -> A) (R : A -> B -> Prop) l : (forall b, R (f b) b) -> Forall2 R (map f l) l.
Proof. intros H. induction l; constructor; auto. Qed.

Lemma write_config_says c : fits_u32 c -> says_config (write_config c) c.
Proof.
  intros HV. unfold says_config, write_config.
  split; [apply (entry_written _ _ _ (fun n => TInt (Z.of_N n))); [keys; reflexivity|]|].
  { intros n E. unfold fits_u32 in HV. rewrite E in HV. split; [reflexivity|exact HV]. }
  split; [eexists; split; [keys; reflexivity|apply Forall2_map_l; exact write_artefact_says]|].
  split; [eexists; split; [keys; reflexivity|apply Forall2_map_l; exact write_relation_says]|].
  split.
  - apply (entry_written _ _ _ (fun js => TTable (map (fun e => (fst e, write_job (snd e))) js))); [keys; reflexivity|].
    intros js _. eexists. split; [reflexivity|]. apply Forall2_map_l. intros [k j]. cbn [fst snd].
    split; [reflexivity|apply write_job_says].
  - apply (entry_written _ _ _ write_texts); [keys; reflexivity|]. intros; reflexivity.
Qed.

Lemma says_config_unique m c c' : says_config m c -> says_config m c' -> c = c'.
Proof. intros H1 H2. apply to_config_iff in H1. apply to_config_iff in H2. congruence. Qed.

Lemma known_keys m m' : (forall k, In k config_keys -> oget k m = oget k m') -> to_config m = to_config m'.
Proof.
  intros H. unfold to_config, may, must.
  rewrite (H (L "version")), (H (L "artefacts")), (H (L "relations")), (H (L "jobs")), (H (L "default_jobs"));
    [reflexivity|cbn [config_keys map In]; tauto ..].
Qed.
Lemma known_artefact_keys m m' : (forall k, In k artefact_keys -> oget k m = oget k m') ->
  to_artefact (TTable m) = to_artefact (TTable m').
Proof.
  intros H. cbn [to_artefact]. unfold may, must.
  rewrite (H (L "id")), (H (L "paths")), (H (L "parser")), (H (L "ignore_derived_requirements")), (H (L "reference_with_title"));
    [reflexivity|cbn [artefact_keys map In]; tauto ..].
Qed.

(** ** The process *)
From Verif Require Import TraceSpec FmtSpec CtlSpec CtlFacts JobFacts.
Section Process.
  Context {U : UnicodeTables} {D : Debug} {US : UnstableSort} {CT : CaseTables} {J : JsonText}
    {I : Inputs} {O : Outputs} {T : TomlFile}.

  Lemma place_message file e : exists at_, place e at_ /\ toml_message file e = file ++ at_ ++ L "TOML Error " ++ te_text e.
  Proof.
    unfold place, toml_message. destruct (te_line_col e) as [[line col]|].
    - eexists. split; [reflexivity|]. rewrite <- !app_assoc. reflexivity.
    - eexists. split; [reflexivity|]. reflexivity.
  Qed.
  Lemma place_unique e a b : place e a -> place e b -> a = b.
  Proof. unfold place. destruct (te_line_col e) as [[line col]|]; congruence. Qed.

  Lemma load_spec file :
    match load_config file with
    | inl c => holds file c
    | inr m => complaint file m /\ forall c, ~ holds file c
    end.
  Proof.
    unfold load_config. destruct (tf_read file) as [bytes|m] eqn:ER.
    2:{ split; [apply co_unreadable; exact ER|]. intros c (b & d & X & _). congruence. }
    destruct (tf_parse bytes) as [doc|e] eqn:EP.
    2:{ destruct (place_message file e) as (at_ & HP & ->). split; [exact (co_syntax _ _ _ _ ER EP HP)|].
        intros c (b & d & X & Y & _). congruence. }
    destruct (to_config doc) as [c|] eqn:EC.
    2:{ assert (HN : forall c, ~ says_config doc c) by (intros c X; apply to_config_iff in X; congruence).
        destruct (place_message file (tf_decode_error doc)) as (at_ & HP & ->).
        split; [exact (co_content _ _ _ _ ER EP HN HP)|]. intros c (b & d & X & Y & Z & _).
        rewrite ER in X. inversion X; subst b. rewrite EP in Y. inversion Y; subst d. exact (HN c Z). }
    apply to_config_iff in EC. destruct (cf_version c) as [v|] eqn:EV.
    - change CONFIG_VERSION with 0. destruct (0 <? v) eqn:E0.
      + apply N.ltb_lt in E0. split; [exact (co_version _ _ _ _ _ ER EP EC EV E0)|].
        intros c' (b & d & X & Y & Z & W). rewrite ER in X. inversion X; subst b. rewrite EP in Y. inversion Y; subst d.
        rewrite (says_config_unique _ _ _ Z EC) in W. rewrite EV in W. destruct W as [W|W]; inversion W. lia.
      + apply N.ltb_ge in E0. exists bytes, doc. split; [exact ER|]. split; [exact EP|]. split; [exact EC|].
        right. rewrite EV. f_equal. lia.
    - exists bytes, doc. auto.
  Qed.
  Lemma holds_load file c : holds file c -> load_config file = inl c.
  Proof.
    intros H. pose proof (load_spec file) as HS. destruct (load_config file) as [c'|m].
    - f_equal. destruct H as (b & d & X & Y & Z & _), HS as (b' & d' & X' & Y' & Z' & _).
      assert (b = b') by congruence. subst b'. assert (d = d') by congruence. subst d'.
      exact (says_config_unique _ _ _ Z' Z).
    - destruct HS as [_ HN]. exfalso. exact (HN c H).
  Qed.
  Lemma complaint_load file m : complaint file m -> load_config file = inr m.
  Proof.
    intros H. unfold load_config.
    destruct H as [m ER|bytes e at_ ER EP HP|bytes doc at_ ER EP HN HP|bytes doc c v ER EP HC EV H0]; rewrite ER; [reflexivity| | |];
      rewrite EP.
    - destruct (place_message file e) as (at' & HP' & ->). rewrite (place_unique _ _ _ HP HP'). reflexivity.
    - destruct (to_config doc) as [c|] eqn:EC; [apply to_config_iff in EC; exfalso; exact (HN c EC)|].
      destruct (place_message file (tf_decode_error doc)) as (at' & HP' & ->). rewrite (place_unique _ _ _ HP HP'). reflexivity.
    - apply to_config_iff in HC. rewrite HC, EV. apply N.ltb_lt in H0. change CONFIG_VERSION with 0. rewrite H0. reflexivity.
  Qed.
  Lemma complaint_unique file m m' : complaint file m -> complaint file m' -> m = m'.
  Proof. intros H1 H2. apply complaint_load in H1. apply complaint_load in H2. congruence. Qed.

  Lemma usable_of_load file c : load_config file = inl c -> get_config (Some c) = Some c.
  Proof.
    intros H. pose proof (load_spec file) as HS. rewrite H in HS. destruct HS as (b & d & _ & _ & _ & W).
    apply get_config_spec. split; [reflexivity|exact W].
  Qed.

  (** [main] is [main_rc] with messages. *)
  Lemma main_projects a :
    (exists c, holds (arg_config a) c /\
       exists h m x, main a = (h, m, x) /\ main_rc (Some c) (arg_base a) (arg_jobs a) = (h, x)) \/
    ((forall c, ~ holds (arg_config a) c) /\
     exists m, complaint (arg_config a) m /\ main a = ([], m ++ [NL], Exit 2)).
  Proof.
    unfold main, main_rc. pose proof (load_spec (arg_config a)) as HS.
    destruct (load_config (arg_config a)) as [c|m] eqn:EL.
    - left. exists c. split; [exact HS|]. rewrite (usable_of_load _ _ EL).
      destruct (controller_new c (arg_base a)) as [ctl|]; [|do 3 eexists; split; reflexivity].
      destruct (run_cli_jobs ctl (arg_jobs a) []) as [h [[]|e|]]; do 3 eexists; split; reflexivity.
    - right. destruct HS as [HC HN]. split; [exact HN|]. exists m. auto.
  Qed.

  Lemma run_fails_io c j h h' e : run c j h = (h', RFail e) -> exists p t, e = CIo p t.
  Proof.
    unfold run. intros H. destruct (open_output c j h) as [h1 [s|e1|]] eqn:EO.
    - destruct (job_text c j); [|discriminate]. destruct (out_write h1 s a) as [[n m]|]; inversion H. eauto.
    - inversion H; subst e1. unfold open_output in EO. destruct (eqb (job_file j) (L "-")); [discriminate|].
      destruct (out_parent _) as [d|].
      + destruct (out_make_dirs h d); [inversion EO; eauto|]. destruct (out_create _ _); inversion EO. eauto.
      + destruct (out_create _ _); inversion EO. eauto.
    - discriminate.
  Qed.

  (** The message of a failure. *)
  Lemma main_message a h m x : main a = (h, m, x) ->
    match x with
    | Exit 2 =>
        (h = [] /\ exists t, complaint (arg_config a) t /\ m = t ++ [NL]) \/
        exists c ctl, holds (arg_config a) c /\ controller_new c (arg_base a) = Done ctl /\
          ((h = [] /\ chosen ctl (arg_jobs a) = [] /\ m = L "Config Error: no default_jobs configured" ++ [NL]) \/
           (h = [] /\ exists n, first_unknown ctl (chosen ctl (arg_jobs a)) n /\ m = L "Unknown Job " ++ n ++ [NL]) \/
           (exists js pre j post ss h1 p t, jobs_named ctl (chosen ctl (arg_jobs a)) js /\ js = pre ++ j :: post /\
              all_run ctl pre [] ss h1 /\ run ctl j h1 = (h, RFail (CIo p t)) /\
              m = L "IO Error: " ++ t ++ L " in " ++ p ++ [NL]))
    | _ => m = []
    end.
  Proof.
    unfold main. pose proof (load_spec (arg_config a)) as HS.
    destruct (load_config (arg_config a)) as [c|t] eqn:EL.
    2:{ intros H. inversion H; subst. left. split; [reflexivity|]. exists t. destruct HS. auto. }
    destruct (controller_new c (arg_base a)) as [ctl|] eqn:EN; [|intros H; inversion H; reflexivity].
    destruct (run_cli_jobs ctl (arg_jobs a) []) as [h1 [[]|e|]] eqn:ER; intros H; inversion H; subst; try reflexivity.
    right. exists c, ctl. split; [exact HS|]. split; [exact EN|]. rewrite run_cli_spec in ER.
    destruct (is_nil (chosen ctl (arg_jobs a))) eqn:EC.
    - inversion ER; subst. left. apply is_nil_spec in EC. cbn [show_controller_error]. rewrite <- app_assoc. auto.
    - assert (HF : failed (@RFail job_success e)) by exact Logic.I.
      apply (by_name_fails _ _ _ _ _ HF) in ER. destruct ER as [(n & Hn & -> & E)|(js & pre & j & post & ss & h2 & Hj & E & Hr & Hf)].
      + inversion E; subst. right; left. split; [reflexivity|]. exists n. split; [exact Hn|]. cbn [show_controller_error].
        rewrite <- app_assoc. reflexivity.
      + right; right. destruct (run_fails_io _ _ _ _ _ Hf) as (p & t & ->). exists js, pre, j, post, ss, h2, p, t.
        repeat (split; [assumption|]). cbn [show_controller_error]. rewrite <- !app_assoc. reflexivity.
  Qed.
  Lemma message_iff_2 a h m x : main a = (h, m, x) -> (x = Exit 2 <-> m <> []).
  Proof.
    intros H. pose proof (main_message a h m x H) as HM. 
    assert (HX : forall t : str, t ++ [NL] <> []) by (intros [|]; discriminate).
    destruct x as [n|]; [|split; [discriminate|congruence]].
    destruct n as [|[p|[p|p|]|]]; try (split; [discriminate|congruence]).
    split; [intros _|reflexivity].
    destruct HM as [(_ & t & _ & ->)|(c & ctl & _ & _ & [(_ & _ & ->)|[(_ & n & _ & ->)|(js & pre & j & post & ss & h1 & p & t & _ & _ & _ & _ & ->)]])];
      try (apply HX); discriminate.
  Qed.
End Process.

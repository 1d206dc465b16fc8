(** Facts about reading a file line by line. *)
From Coq Require Import ZArith ZifyN.
From Verif Require Import Base Unicode Utf8 MdSyntax MdLexFacts.
Open Scope N_scope.

(** What the parsers get: every line but the last ends in a line feed, line feeds occur only at
    the end, no line is empty, and nothing follows an error. *)
Inductive reads_wf : list read -> Prop :=
| wf_nil : reads_wf []
| wf_err m : reads_wf [RErr m]
| wf_last s : s <> [] -> ~ In NL s -> reads_wf [ROk s]
| wf_line a l : ~ In NL a -> reads_wf l -> reads_wf (ROk (a ++ [NL]) :: l).

(** The same for undecoded lines. *)
Inductive lines_wf : list (list N) -> Prop :=
| lwf_nil : lines_wf []
| lwf_last s : s <> [] -> ~ In NL s -> lines_wf [s]
| lwf_line a l : ~ In NL a -> lines_wf l -> lines_wf ((a ++ [NL]) :: l).

Lemma split_lines_wf bs : lines_wf (split_lines bs).
Proof.
  induction bs as [|b bs IH]; cbn [split_lines]; [constructor|].
  destruct (N.eqb_spec b 10) as [->|Hb].
  - apply (lwf_line []); [tauto|exact IH].
  - inversion IH as [E|s H1 H2 E|a l H1 H2 E].
    + apply lwf_last; [discriminate|]. intros [H|[]]; exact (Hb H).
    + apply lwf_last; [discriminate|]. intros [H|H]; [exact (Hb H)|exact (H2 H)].
    + apply (lwf_line (b :: a)); [|exact H2]. intros [H|H]; [exact (Hb H)|exact (H1 H)].
Qed.

Lemma split_lines_concat bs : concat (split_lines bs) = bs.
Proof.
  induction bs as [|b bs IH]; cbn [split_lines]; [reflexivity|].
  destruct (b =? 10); [cbn; rewrite IH; reflexivity|].
  destruct (split_lines bs) as [|l ls]; cbn in *; rewrite <- IH; reflexivity.
Qed.

Lemma encode_nil s : encode s = [] -> s = [].
Proof.
  destruct s as [|c s]; [reflexivity|]. unfold encode. cbn [flat_map]. unfold encode_char.
  destruct (c <? 128), (c <? 2048), (c <? 65536); discriminate.
Qed.

Lemma encode_app a b : encode (a ++ b) = encode a ++ encode b.
Proof. apply flat_map_app. Qed.

Lemma encode_byte_len s : N.of_nat (length (encode s)) = byte_len s.
Proof.
  induction s as [|c s IH]; [reflexivity|]. unfold encode in *. cbn [flat_map byte_len fold_right].
  fold (byte_len s). rewrite app_length, Nat2N.inj_add, IH. f_equal. unfold encode_char, utf8_len.
  destruct (c <? 128), (c <? 2048), (c <? 65536); reflexivity.
Qed.

Lemma encode_char_nl c : In NL (encode_char c) <-> c = NL.
Proof.
  unfold encode_char, NL.
  destruct (N.ltb_spec c 128); [cbn; intuition|].
  destruct (N.ltb_spec c 2048); [|destruct (N.ltb_spec c 65536)]; cbn [In];
    (split; [|lia]); intros H'; exfalso;
    repeat (destruct H' as [H'|H']; [lia|]); exact H'.
Qed.

Lemma encode_nl s : In NL (encode s) <-> In NL s.
Proof.
  unfold encode. rewrite in_flat_map. split.
  - intros (c & Hc & H). apply encode_char_nl in H. subst. exact Hc.
  - intros H. exists NL. split; [exact H|]. apply encode_char_nl. reflexivity.
Qed.

Lemma decode_nl_end a s : ~ In NL a -> decode (a ++ [NL]) = Some s ->
  exists t, s = t ++ [NL] /\ ~ In NL t /\ decode a = Some t.
Proof.
  intros Ha H. apply decode_sound in H. destruct H as [E Hv].
  assert (Hne : s <> []) by (intros ->; destruct a; discriminate).
  destruct (exists_last Hne) as (t & c & ->).
  rewrite encode_app in E. cbn [encode flat_map] in E. rewrite app_nil_r in E.
  assert (Hc : c = NL).
  { assert (Hec : encode_char c <> [])
      by (unfold encode_char; destruct (c <? 128), (c <? 2048), (c <? 65536); discriminate).
    destruct (exists_last Hec) as (p & x & Hp). rewrite Hp, app_assoc in E.
    apply app_inj_tail in E. destruct E as [_ <-].
    apply encode_char_nl. rewrite Hp. apply in_or_app. right. left. reflexivity. }
  subst c. change (encode_char NL) with [NL] in E. apply app_inj_tail in E. destruct E as [-> _].
  exists t. split; [reflexivity|]. split; [rewrite <- encode_nl; exact Ha|].
  apply decode_encode. rewrite forallb_app in Hv. apply andb_true_iff in Hv. apply Hv.
Qed.

Lemma decode_nl_end_ok a t : decode a = Some t -> decode (a ++ [NL]) = Some (t ++ [NL]).
Proof.
  intros H. apply decode_sound in H. destruct H as [-> Hv].
  change [NL] with (encode [NL]) at 1. rewrite <- encode_app. apply decode_encode.
  rewrite forallb_app, Hv. reflexivity.
Qed.

Lemma decode_no_nl l s : l <> [] -> ~ In NL l -> decode l = Some s -> s <> [] /\ ~ In NL s.
Proof.
  intros Hne Hn H. apply decode_sound in H. destruct H as [-> Hv]. rewrite encode_nl in Hn.
  split; [|exact Hn]. intros ->. apply Hne. reflexivity.
Qed.

Lemma last_snoc_eqb a (d : N) : last (a ++ [NL]) d =? 10 = true.
Proof. rewrite last_last. reflexivity. Qed.

Lemma last_no_nl (s : list N) d : s <> [] -> ~ In NL s -> last s d =? 10 = false.
Proof.
  intros Hne Hn. destruct (exists_last Hne) as (t & c & ->). rewrite last_last.
  destruct (N.eqb_spec c 10) as [->|]; [|reflexivity].
  exfalso. apply Hn. apply in_or_app. right. left. reflexivity.
Qed.

Lemma read_results_line a ls fail :
  read_results ((a ++ [NL]) :: ls) fail =
  match decode (a ++ [NL]) with
  | Some s => ROk s :: read_results ls fail
  | None => [RErr invalid_utf8]
  end.
Proof. cbn [read_results]. rewrite last_snoc_eqb. destruct ls, fail; reflexivity. Qed.

Lemma read_results_last s fail :
  s <> [] -> ~ In NL s ->
  read_results [s] fail =
  match fail with
  | Some m => [RErr m]
  | None => match decode s with Some t => [ROk t] | None => [RErr invalid_utf8] end
  end.
Proof.
  intros H1 H2. cbn [read_results]. rewrite last_no_nl by assumption. destruct fail; reflexivity.
Qed.

Theorem read_lines_wf r : reads_wf (read_lines r).
Proof.
  unfold read_lines. generalize (split_lines_wf (rd_bytes r)). generalize (split_lines (rd_bytes r)).
  intros ls H. induction H as [|s Hne Hn|a l Ha Hl IH].
  - cbn. destruct (rd_fail r); constructor.
  - rewrite read_results_last by assumption. destruct (rd_fail r); [constructor|].
    destruct (decode s) eqn:E; [|constructor].
    destruct (decode_no_nl _ _ Hne Hn E). apply wf_last; assumption.
  - rewrite read_results_line. destruct (decode (a ++ [NL])) as [s|] eqn:E; [|constructor].
    apply decode_nl_end in E; [|exact Ha]. destruct E as (t & -> & Ht & _).
    apply wf_line; assumption.
Qed.

(** A file that is the UTF-8 encoding of a text is read as the lines of the text. *)
Lemma split_lines_app a b :
  a <> [] -> ~ In NL a ->
  split_lines (a ++ b) = match split_lines b with l :: ls => (a ++ l) :: ls | [] => [a] end.
Proof.
  induction a as [|c a IH]; intros Hne Hn; [congruence|].
  cbn [app split_lines]. destruct (N.eqb_spec c 10) as [->|Hc]; [exfalso; apply Hn; left; reflexivity|].
  destruct a as [|c' a].
  - cbn [app]. destruct (split_lines b); reflexivity.
  - rewrite IH; [|discriminate|intros H; apply Hn; right; exact H].
    destruct (split_lines b); reflexivity.
Qed.

Lemma split_encode s : split_lines (encode s) = map encode (split_lines s).
Proof.
  induction s as [|c s IH]; [reflexivity|].
  unfold encode at 1. cbn [flat_map]. fold (encode s). cbn [split_lines].
  destruct (N.eqb_spec c 10) as [->|Hc].
  - change (encode_char 10) with [10]. cbn [app split_lines map].
    change (10 =? 10) with true. cbn iota. rewrite IH. reflexivity.
  - rewrite split_lines_app.
    + rewrite IH. destruct (split_lines s) as [|l ls]; cbn [map]; [|reflexivity].
      unfold encode. cbn [flat_map]. rewrite app_nil_r. reflexivity.
    + unfold encode_char. destruct (c <? 128), (c <? 2048), (c <? 65536); discriminate.
    + rewrite encode_char_nl. exact Hc.
Qed.

Theorem read_text s :
  forallb scalar s = true -> read_lines (mkReader (encode s) None) = map ROk (split_lines s).
Proof.
  intros Hs. unfold read_lines. cbn [rd_bytes rd_fail]. rewrite split_encode.
  assert (G : forall ls, forallb (forallb scalar) ls = true ->
              read_results (map encode ls) None = map ROk ls).
  { induction ls as [|l ls IH]; intros H; [reflexivity|]. cbn [forallb] in H.
    apply andb_true_iff in H. destruct H as [H1 H2]. cbn [map read_results].
    rewrite decode_encode, IH by assumption. destruct (map encode ls), (last (encode l) 0 =? 10); reflexivity. }
  apply G. apply forallb_forall. intros l Hl. apply forallb_forall. intros c Hc.
  rewrite forallb_forall in Hs. apply Hs. rewrite <- (split_lines_concat s). apply in_concat. eauto.
Qed.

(** Nothing is lost: without an error the lines make up the file. *)
Theorem read_lines_complete r :
  (forall m, ~ In (RErr m) (read_lines r)) ->
  rd_fail r = None /\
  exists ls, read_lines r = map ROk ls /\ decode (rd_bytes r) = Some (concat ls).
Proof.
  unfold read_lines. replace (decode (rd_bytes r)) with (decode (concat (split_lines (rd_bytes r))))
    by (rewrite split_lines_concat; reflexivity).
  generalize (split_lines_wf (rd_bytes r)). generalize (split_lines (rd_bytes r)).
  intros ls H. induction H as [|s Hne Hn|a l Ha Hl IH]; intros HE.
  - cbn in *. destruct (rd_fail r) as [m|]; [exfalso; apply (HE m); left; reflexivity|].
    split; [reflexivity|]. exists []. split; reflexivity.
  - rewrite read_results_last in * by assumption.
    destruct (rd_fail r) as [m|]; [exfalso; apply (HE m); left; reflexivity|].
    split; [reflexivity|].
    destruct (decode s) as [t|] eqn:E; [|exfalso; apply (HE invalid_utf8); left; reflexivity].
    exists [t]. cbn. rewrite !app_nil_r. split; [reflexivity|exact E].
  - rewrite read_results_line in *. destruct (decode (a ++ [NL])) as [s|] eqn:E;
      [|exfalso; apply (HE invalid_utf8); left; reflexivity].
    destruct IH as (F & ts & H1 & H2); [intros m Hm; apply (HE m); right; exact Hm|].
    split; [exact F|]. exists (s :: ts). rewrite H1. split; [reflexivity|]. cbn [concat].
    apply decode_sound in E. apply decode_sound in H2. destruct E as [-> V1], H2 as [-> V2].
    rewrite <- encode_app. apply decode_encode. rewrite forallb_app, V1, V2. reflexivity.
Qed.

Lemma utf8_len_pos c : 1 <= utf8_len c.
Proof. unfold utf8_len. destruct (c <? 128), (c <? 2048), (c <? 65536); lia. Qed.

Lemma byte_len_1 s : byte_len s = 1 <-> exists c, s = [c] /\ c < 128.
Proof.
  split.
  - destruct s as [|c [|c' s]]; cbn; intros H.
    + discriminate.
    + exists c. split; [reflexivity|]. unfold utf8_len in H.
      destruct (N.ltb_spec c 128); [assumption|].
      destruct (c <? 2048); [|destruct (c <? 65536)]; lia.
    + exfalso. pose proof (utf8_len_pos c). pose proof (utf8_len_pos c'). lia.
  - intros (c & -> & H). cbn. unfold utf8_len. rewrite (proj2 (N.ltb_lt c 128)) by exact H. reflexivity.
Qed.

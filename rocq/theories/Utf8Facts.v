(** Facts for C104: the decoder of Utf8.v accepts exactly the texts of Utf8Spec.v. *)
From Coq Require Import ZArith ZifyN.
From Verif Require Import Base OMap Models Unicode Utf8 Utf8Spec ReadFacts MdSyntax MdParser MdSpec MdFacts MdCor
  MonoParser MonoSpec MonoFacts Paths RustParser Serialize SerdeJson JsonGrammar JsonValues Controller JsonCor
  LineSpec LineFiles MdCor2.
Open Scope N_scope.

Ltac Zify.zify_post_hook ::= Z.div_mod_to_equations.

Lemma encode_well_formed c : scalar c = true -> well_formed (encode_char c) /\ char_value (encode_char c) = c.
Proof.
  intros H. apply scalar_spec in H. unfold encode_char.
  destruct (N.ltb_spec c 128).
  { split; [|cbn [char_value]; change (2 ^ 7) with 128; lia].
    exists [(0x00, 0x7F)]. split; [cbn; tauto|]. repeat constructor; cbn; lia. }
  destruct (N.ltb_spec c 2048).
  { split; [|cbn [char_value]; change (2 ^ 5) with 32; change (2 ^ 6) with 64; lia].
    exists [(0xC2, 0xDF); (0x80, 0xBF)]. split; [cbn; tauto|]. repeat constructor; cbn [fst snd]; lia. }
  destruct (N.ltb_spec c 65536).
  { split.
    2:{ cbn [char_value]; change (2 ^ 4) with 16; change (2 ^ 6) with 64; change (2 ^ 12) with 4096; lia. }
    destruct (N.ltb_spec c 0x1000).
    { exists [(0xE0, 0xE0); (0xA0, 0xBF); (0x80, 0xBF)]. split; [cbn; tauto|]. repeat constructor; cbn [fst snd]; lia. }
    destruct (N.ltb_spec c 0xD000).
    { exists [(0xE1, 0xEC); (0x80, 0xBF); (0x80, 0xBF)]. split; [cbn; tauto|]. repeat constructor; cbn [fst snd]; lia. }
    destruct (N.ltb_spec c 0xE000).
    { exists [(0xED, 0xED); (0x80, 0x9F); (0x80, 0xBF)]. split; [cbn; tauto|]. repeat constructor; cbn [fst snd]; lia. }
    exists [(0xEE, 0xEF); (0x80, 0xBF); (0x80, 0xBF)]. split; [cbn; tauto|]. repeat constructor; cbn [fst snd]; lia. }
  split.
  2:{ cbn [char_value]; change (2 ^ 3) with 8; change (2 ^ 6) with 64; change (2 ^ 12) with 4096;
      change (2 ^ 18) with 262144; lia. }
  destruct (N.ltb_spec c 0x40000).
  { exists [(0xF0, 0xF0); (0x90, 0xBF); (0x80, 0xBF); (0x80, 0xBF)]. split; [cbn; tauto|].
    repeat constructor; cbn [fst snd]; lia. }
  destruct (N.ltb_spec c 0x100000).
  { exists [(0xF1, 0xF3); (0x80, 0xBF); (0x80, 0xBF); (0x80, 0xBF)]. split; [cbn; tauto|].
    repeat constructor; cbn [fst snd]; lia. }
  exists [(0xF4, 0xF4); (0x80, 0x8F); (0x80, 0xBF); (0x80, 0xBF)]. split; [cbn; tauto|].
  repeat constructor; cbn [fst snd]; lia.
Qed.

Ltac rows :=
  repeat match goal with
         | H : Forall2 in_range _ (_ :: _) |- _ => inversion H; clear H; subst
         | H : Forall2 in_range _ [] |- _ => inversion H; clear H; subst
         | H : in_range _ _ |- _ => unfold in_range in H; cbn [fst snd] in H
         end.

Lemma well_formed_encode bs : well_formed bs -> scalar (char_value bs) = true /\ encode_char (char_value bs) = bs.
Proof.
  intros (row & Hin & HF). cbn [sequences In] in Hin.
  repeat match type of Hin with
         | _ \/ _ => destruct Hin as [<-|Hin]
         | False => destruct Hin
         end; rows; cbn [char_value];
    change (2 ^ 7) with 128; change (2 ^ 5) with 32; change (2 ^ 4) with 16; change (2 ^ 3) with 8;
    change (2 ^ 6) with 64; change (2 ^ 12) with 4096; change (2 ^ 18) with 262144.
  all: match goal with |- scalar ?v = true /\ _ => remember v as c eqn:Ec end.
  all: split; [apply scalar_spec; lia|]; unfold encode_char.
  all: destruct (N.ltb_spec c 128); [try lia; repeat f_equal; lia|].
  all: destruct (N.ltb_spec c 2048); [try lia; repeat f_equal; lia|].
  all: destruct (N.ltb_spec c 65536); [try lia; repeat f_equal; lia|].
  all: try lia; repeat f_equal; lia.
Qed.

Theorem decode_utf8 bs t : decode bs = Some t <-> utf8 bs t.
Proof.
  split.
  - intros H. apply decode_sound in H. destruct H as [-> H]. induction t as [|c t IH]; [constructor|].
    cbn [forallb] in H. apply andb_true_iff in H. destruct H as [Hc Ht].
    destruct (encode_well_formed c Hc) as [HW HV]. unfold encode. cbn [flat_map]. fold (encode t).
    rewrite <- HV at 2. constructor; [exact HW|apply IH; exact Ht].
  - intros H. induction H as [|bs rest t HW HU IH]; [reflexivity|].
    destruct (well_formed_encode bs HW) as [HS HE]. rewrite <- HE at 1. rewrite decode_char, IH by exact HS. reflexivity.
Qed.

Lemma decode_none bs : decode bs = None <-> ~ exists t, utf8 bs t.
Proof.
  destruct (decode bs) as [t|] eqn:E; split; try discriminate.
  - intros H. exfalso. apply H. exists t. apply decode_utf8. exact E.
  - intros _ (t & H). apply decode_utf8 in H. congruence.
  - reflexivity.
Qed.

Lemma utf8_encode t : forallb scalar t = true <-> exists bs, utf8 bs t.
Proof.
  split.
  - intros H. exists (encode t). apply decode_utf8, decode_encode. exact H.
  - intros (bs & H). apply decode_utf8, decode_sound in H. apply H.
Qed.

(** A text has one encoding, and bytes are at most one text. *)
Lemma utf8_unique bs t bs' t' : utf8 bs t -> utf8 bs' t' -> (bs = bs' <-> t = t').
Proof.
  intros H H'. apply decode_utf8 in H, H'. split.
  - intros <-. congruence.
  - intros <-. apply decode_sound in H, H'. destruct H as [-> _], H' as [-> _]. reflexivity.
Qed.

Lemma every_text t : (exists bs, utf8 bs t) <-> Forall (fun c => c < 0xD800 \/ 0xDFFF < c <= 0x10FFFF) t.
Proof.
  rewrite <- utf8_encode, forallb_forall, Forall_forall. split; intros H c Hc; apply scalar_spec; apply H; exact Hc.
Qed.

Section Parsers.
  Context {U : UnicodeTables}.

  Lemma rust_text syn dbg p :
    (forall bs t, utf8 bs t -> rust_parse syn dbg p (mkReader bs None) = rust_parse (fun _ => syn t) dbg p (mkReader [] None)) /\
    (forall bs, ~ (exists t, utf8 bs t) ->
       rust_parse syn dbg p (mkReader bs None) = Done ([], [EIo p (L "stream did not contain valid UTF-8")])).
  Proof.
    split.
    - intros bs t H. apply decode_utf8 in H. unfold rust_parse, read_to_string. cbn [rd_fail rd_bytes]. rewrite H. reflexivity.
    - intros bs H. apply decode_none in H. unfold rust_parse, read_to_string. cbn [rd_fail rd_bytes]. rewrite H. reflexivity.
  Qed.

  Lemma mono_text p :
    (forall bs t, utf8 bs t -> exists errs, mono_parse p (mkReader bs None) = Done ([mono_requirement p t], errs)) /\
    (forall bs, mono_parse p (mkReader bs None) = Panic <-> ~ exists t, utf8 bs t).
  Proof.
    split.
    - intros bs t H. apply decode_utf8 in H. rewrite (mono_exact p bs t H). eauto.
    - intros bs. rewrite mono_panics, <- decode_none. cbn [rd_fail rd_bytes]. split; [intros [H|H]; [congruence|exact H]|auto].
  Qed.

  Lemma read_error_none l : read_error l = None <-> forall m, ~ In (RErr m) l.
  Proof.
    induction l as [|[w|m] l IH]; cbn.
    - split; [intros _ m []|reflexivity].
    - rewrite IH. split; intros H m; [intros [E|E]; [discriminate|apply (H m E)]|intros E; apply (H m); right; exact E].
    - split; [discriminate|]. intros H. exfalso. apply (H m). left. reflexivity.
  Qed.

  Lemma md_no_io p r reqs errs m : md_parse p r = Done (reqs, errs) -> (In (EIo p m) errs <-> doc_error r = Some m).
  Proof.
    intros HD. split.
    - intros Hin. destruct (proj2 (md_locations p r reqs errs HD) _ Hin) as [(n & _ & [(m' & E)|(a & id & E)])|(m' & E & E')];
        congruence.
    - intros E. destruct (md_blocks_exist r) as (bes & HF).
      assert (HP : md_parse p r <> Panic) by congruence.
      pose proof (md_exact p r bes HF HP) as HE. rewrite HD in HE. injection HE as _ ->.
      apply in_or_app. right. unfold io_error. rewrite E. left. reflexivity.
  Qed.

  Lemma md_text p bs reqs errs : md_parse p (mkReader bs None) = Done (reqs, errs) ->
    ((exists t, utf8 bs t) <-> forall m, ~ In (EIo p m) errs).
  Proof.
    intros HD. split.
    - intros (t & H) m Hin. apply (md_no_io p _ _ _ m HD) in Hin.
      apply decode_utf8, decode_sound in H. destruct H as [-> H]. unfold doc_error in Hin.
      rewrite (read_text t H) in Hin.
      assert (E : read_error (map ROk (split_lines t)) = None).
      { apply read_error_none. intros m' Hm. apply in_map_iff in Hm. destruct Hm as (x & E & _). discriminate. }
      congruence.
    - intros H. destruct (doc_error (mkReader bs None)) as [m|] eqn:E.
      { exfalso. apply (H m). apply (md_no_io p _ _ _ m HD). exact E. }
      unfold doc_error in E. pose proof (proj1 (read_error_none _) E) as E'.
      destruct (read_lines_complete _ E') as (_ & ls & _ & Hd). cbn [rd_bytes] in Hd.
      exists (concat ls). apply decode_utf8. exact Hd.
  Qed.

  Lemma md_headings p bs t reqs errs : utf8 bs t -> md_parse p (mkReader bs None) = Done (reqs, errs) ->
    ~ loses_last p (mkReader bs None) errs ->
    forall id ti loc, (exists q, In q reqs /\ req_id q = id /\ req_title q = ti /\ req_location q = loc) <->
      exists n l t', line_at t n l /\ heading_line l id t' /\ ti = Some t' /\ loc = at_line p n.
  Proof.
    intros H. apply decode_utf8, decode_sound in H. destruct H as [-> H]. exact (heading_lines p t reqs errs H).
  Qed.
End Parsers.

Lemma json_text {I : Inputs} (serde : forall r, in_json r = from_reader r) p bs reqs :
  json_parse p (mkReader bs None) = (reqs, []) <->
  exists t v, utf8 bs t /\ json_document t v /\ requirements_value v reqs.
Proof.
  rewrite (json_parse_ok serde). split.
  - intros (s & v & H & H1 & H2). exists s, v. split; [|tauto]. apply decode_utf8.
    unfold file_text, read_to_string in H. cbn [rd_fail rd_bytes] in H.
    destruct (decode bs) as [u|]; [|discriminate H]. injection H as ->. reflexivity.
  - intros (s & v & H & H1 & H2). apply decode_utf8 in H. exists s, v. split; [|tauto].
    unfold file_text, read_to_string. cbn [rd_fail rd_bytes]. rewrite H. reflexivity.
Qed.

(** Files as bytes, UTF-8 decoding and reading line by line: the parts of the Rust standard
    library ([BufRead::read_line], [BufRead::lines], [Read::read_to_string], [str::from_utf8])
    that the parsers in /repo/src/parsers use on their input. *)
From Coq Require Import ZArith ZifyN.
From Verif Require Import Base Unicode.
Open Scope N_scope.

(** Continuation byte *)
Definition is_cont (b : N) : bool := (128 <=? b) && (b <=? 191).
(** Unicode scalar value *)
Definition scalar (c : chr) : bool := (c <? 55296) || ((57343 <? c) && (c <=? 1114111)).

(** [str::from_utf8]: strict decoding (no overlong forms, no surrogates, at most U+10FFFF). *)
Fixpoint decode (bs : list N) : option str :=
  match bs with
  | [] => Some []
  | b0 :: r0 =>
      if b0 <? 128 then option_map (cons b0) (decode r0)
      else match r0 with
      | [] => None
      | b1 :: r1 =>
          if negb (is_cont b1) then None
          else if (194 <=? b0) && (b0 <=? 223) then
            option_map (cons ((b0 - 192) * 64 + (b1 - 128))) (decode r1)
          else match r1 with
          | [] => None
          | b2 :: r2 =>
              if negb (is_cont b2) then None
              else if (224 <=? b0) && (b0 <=? 239) then
                let c := (b0 - 224) * 4096 + (b1 - 128) * 64 + (b2 - 128) in
                if (2048 <=? c) && scalar c then option_map (cons c) (decode r2) else None
              else match r2 with
              | [] => None
              | b3 :: r3 =>
                  if negb (is_cont b3) then None
                  else if (240 <=? b0) && (b0 <=? 244) then
                    let c := (b0 - 240) * 262144 + (b1 - 128) * 4096 + (b2 - 128) * 64 + (b3 - 128) in
                    if (65536 <=? c) && scalar c then option_map (cons c) (decode r3) else None
                  else None
              end
          end
      end
  end.

(** [char::encode_utf8] *)
Definition encode_char (c : chr) : list N :=
  if c <? 128 then [c]
  else if c <? 2048 then [192 + c / 64; 128 + c mod 64]
  else if c <? 65536 then [224 + c / 4096; 128 + (c / 64) mod 64; 128 + c mod 64]
  else [240 + c / 262144; 128 + (c / 4096) mod 64; 128 + (c / 64) mod 64; 128 + c mod 64].
Definition encode (s : str) : list N := flat_map encode_char s.

(** What can be read from an opened file: its bytes, and then either the end of the file or an
    error of the operating system, given by its display text. *)
Record reader := mkReader { rd_bytes : list N; rd_fail : option str }.

(** Result of one call of [read_line] other than [Ok(0)]. *)
Inductive read :=
| ROk (line : str)
| RErr (msg : str).

(** [BufRead::read_until(b'\n')]: the bytes up to and including the next line feed, repeatedly. *)
Fixpoint split_lines (bs : list N) : list (list N) :=
  match bs with
  | [] => []
  | b :: bs' =>
      if b =? 10 then [b] :: split_lines bs'
      else match split_lines bs' with
           | l :: ls => (b :: l) :: ls
           | [] => [[b]]
           end
  end.

Definition invalid_utf8 : str := L "stream did not contain valid UTF-8".

(** The results of calling [read_line] until it returns [Ok(0)] or an error.  If the operating
    system fails, it does so while the rest after the last line feed is read. *)
Fixpoint read_results (ls : list (list N)) (fail : option str) : list read :=
  match ls with
  | [] => match fail with Some m => [RErr m] | None => [] end
  | l :: ls' =>
      match ls', fail, last l 0 =? 10 with
      | [], Some m, false => [RErr m]
      | _, _, _ =>
          match decode l with
          | Some s => ROk s :: read_results ls' fail
          | None => [RErr invalid_utf8]
          end
      end
  end.
Definition read_lines (r : reader) : list read := read_results (split_lines (rd_bytes r)) (rd_fail r).

(** [Read::read_to_string] *)
Definition read_to_string (r : reader) : read :=
  match rd_fail r with
  | Some m => RErr m
  | None => match decode (rd_bytes r) with Some s => ROk s | None => RErr invalid_utf8 end
  end.

(** ** Decoding and encoding are inverse *)
Ltac Zify.zify_post_hook ::= Z.div_mod_to_equations.

Ltac nbool :=
  repeat match goal with
         | H : _ && _ = true |- _ => apply andb_true_iff in H; destruct H
         | H : _ || _ = true |- _ => apply orb_true_iff in H
         | H : (_ <=? _) = true |- _ => apply N.leb_le in H
         | H : (_ <? _) = true |- _ => apply N.ltb_lt in H
         | H : (_ <=? _) = false |- _ => apply N.leb_gt in H
         | H : (_ <? _) = false |- _ => apply N.ltb_ge in H
         end.

Lemma scalar_spec c : scalar c = true <-> c < 55296 \/ 57343 < c <= 1114111.
Proof.
  unfold scalar. rewrite orb_true_iff, andb_true_iff, !N.ltb_lt, N.leb_le. reflexivity.
Qed.

Lemma is_cont_spec b : is_cont b = true <-> 128 <= b <= 191.
Proof. unfold is_cont. rewrite andb_true_iff, !N.leb_le. reflexivity. Qed.

Lemma is_cont_mod c : is_cont (128 + c mod 64) = true.
Proof. apply is_cont_spec. lia. Qed.

Lemma range_true a b c : a <= b <= c -> (a <=? b) && (b <=? c) = true.
Proof. intros H. rewrite andb_true_iff, !N.leb_le. exact H. Qed.
Lemma range_false a b c : b < a \/ c < b -> (a <=? b) && (b <=? c) = false.
Proof. intros H. rewrite andb_false_iff, !N.leb_gt. exact H. Qed.

Lemma decode_char c r : scalar c = true -> decode (encode_char c ++ r) = option_map (cons c) (decode r).
Proof.
  intros Hs. pose proof (proj1 (scalar_spec c) Hs) as H. unfold encode_char.
  destruct (N.ltb_spec c 128) as [H1|H1].
  { cbn [app decode]. rewrite (proj2 (N.ltb_lt c 128)) by lia. reflexivity. }
  destruct (N.ltb_spec c 2048) as [H2|H2].
  { cbn [app decode]. rewrite (proj2 (N.ltb_ge _ 128)) by lia. rewrite is_cont_mod. cbn [negb].
    rewrite range_true by lia. f_equal. f_equal. lia. }
  destruct (N.ltb_spec c 65536) as [H3|H3].
  { cbn [app decode]. rewrite (proj2 (N.ltb_ge _ 128)) by lia. rewrite !is_cont_mod. cbn [negb].
    rewrite range_false by lia. rewrite range_true by lia.
    replace ((224 + c / 4096 - 224) * 4096 + (128 + (c / 64) mod 64 - 128) * 64 + (128 + c mod 64 - 128))
      with c by lia.
    rewrite Hs, (proj2 (N.leb_le 2048 c)) by lia. reflexivity. }
  cbn [app decode]. rewrite (proj2 (N.ltb_ge _ 128)) by lia. rewrite !is_cont_mod. cbn [negb].
  rewrite !range_false by lia. rewrite range_true by lia.
  replace ((240 + c / 262144 - 240) * 262144 + (128 + (c / 4096) mod 64 - 128) * 4096 +
           (128 + (c / 64) mod 64 - 128) * 64 + (128 + c mod 64 - 128)) with c by lia.
  rewrite Hs, (proj2 (N.leb_le 65536 c)) by lia. reflexivity.
Qed.

Theorem decode_encode s : forallb scalar s = true -> decode (encode s) = Some s.
Proof.
  induction s as [|c s IH]; intros H; [reflexivity|].
  cbn [forallb] in H. apply andb_true_iff in H. destruct H as [H1 H2].
  unfold encode. cbn [flat_map]. fold (encode s). rewrite decode_char, IH by assumption. reflexivity.
Qed.

Lemma option_map_cons {A} (c : A) x y : option_map (cons c) x = Some y -> exists z, x = Some z /\ y = c :: z.
Proof. destruct x; cbn; intros H; inversion H; subst. eauto. Qed.

Theorem decode_sound bs : forall s, decode bs = Some s -> bs = encode s /\ forallb scalar s = true.
Proof.
  assert (G : forall n bs, (length bs <= n)%nat ->
              forall s, decode bs = Some s -> bs = encode s /\ forallb scalar s = true).
  2:{ intros s. apply (G (length bs)). lia. }
  clear bs. induction n as [|n IH]; intros bs Hlen s H.
  { destruct bs; cbn in Hlen; [|lia]. inversion H. split; reflexivity. }
  destruct bs as [|b0 r0]; [inversion H; split; reflexivity|].
  cbn [length] in Hlen. cbn [decode] in H.
  destruct (b0 <? 128) eqn:E0.
  { apply option_map_cons in H. destruct H as (z & Hz & ->). nbool.
    apply IH in Hz; [|lia]. destruct Hz as [-> Hv]. unfold encode. cbn [flat_map forallb].
    rewrite Hv. unfold encode_char. rewrite (proj2 (N.ltb_lt b0 128)) by lia.
    rewrite (proj2 (scalar_spec b0)) by lia. split; reflexivity. }
  destruct r0 as [|b1 r1]; [discriminate|]. cbn [length] in Hlen.
  destruct (is_cont b1) eqn:C1; [|discriminate]. cbn [negb] in H. apply is_cont_spec in C1. nbool.
  destruct ((194 <=? b0) && (b0 <=? 223)) eqn:E1.
  { apply option_map_cons in H. destruct H as (z & Hz & ->). nbool.
    apply IH in Hz; [|lia]. destruct Hz as [-> Hv]. unfold encode. cbn [flat_map forallb].
    rewrite Hv. rewrite (proj2 (scalar_spec _)) by lia. split; [|reflexivity].
    unfold encode_char.
    rewrite (proj2 (N.ltb_ge _ 128)) by lia. rewrite (proj2 (N.ltb_lt _ 2048)) by lia.
    cbn [app]. f_equal; [lia|]. f_equal. lia. }
  destruct r1 as [|b2 r2]; [discriminate|]. cbn [length] in Hlen.
  destruct (is_cont b2) eqn:C2; [|discriminate]. cbn [negb] in H. apply is_cont_spec in C2.
  destruct ((224 <=? b0) && (b0 <=? 239)) eqn:E2.
  { cbn zeta in H. match type of H with (if ?b then _ else _) = _ => destruct b eqn:E3; [|discriminate] end.
    apply option_map_cons in H. destruct H as (z & Hz & ->). nbool.
    apply IH in Hz; [|lia]. destruct Hz as [-> Hv]. unfold encode. cbn [flat_map forallb].
    rewrite Hv. match goal with H : scalar _ = true |- _ => rewrite H end. split; [|reflexivity].
    unfold encode_char.
    rewrite (proj2 (N.ltb_ge _ 128)) by lia. rewrite (proj2 (N.ltb_ge _ 2048)) by lia.
    rewrite (proj2 (N.ltb_lt _ 65536)) by lia.
    cbn [app]. f_equal; [lia|]. f_equal; [lia|]. f_equal. lia. }
  destruct r2 as [|b3 r3]; [discriminate|]. cbn [length] in Hlen.
  destruct (is_cont b3) eqn:C3; [|discriminate]. cbn [negb] in H. apply is_cont_spec in C3.
  destruct ((240 <=? b0) && (b0 <=? 244)) eqn:E4; [|discriminate].
  cbn zeta in H. match type of H with (if ?b then _ else _) = _ => destruct b eqn:E5; [|discriminate] end.
  apply option_map_cons in H. destruct H as (z & Hz & ->). nbool.
  apply IH in Hz; [|lia]. destruct Hz as [-> Hv]. unfold encode. cbn [flat_map forallb].
  rewrite Hv. match goal with H : scalar _ = true |- _ => rewrite H end. split; [|reflexivity].
  unfold encode_char.
  rewrite (proj2 (N.ltb_ge _ 128)) by lia. rewrite (proj2 (N.ltb_ge _ 2048)) by lia.
  rewrite (proj2 (N.ltb_ge _ 65536)) by lia.
  cbn [app]. f_equal; [lia|]. f_equal; [lia|]. f_equal; [lia|]. f_equal. lia.
Qed.

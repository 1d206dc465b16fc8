(** Character classes and string functions of the Rust standard library / regex crate.

    A [str] is a list of Unicode scalar values (Base.v). *)
From Verif Require Import Base.
Open Scope N_scope.

(** Unicode property White_Space, used by [str::trim] ([char::is_whitespace]) and by `\s` of the
    regex crate.  The 25 code points are listed in full. *)
Definition is_ws (c : chr) : bool :=
  ((9 <=? c) && (c <=? 13)) || (c =? 32) || (c =? 133) || (c =? 160) || (c =? 5760) ||
  ((8192 <=? c) && (c <=? 8202)) || (c =? 8232) || (c =? 8233) || (c =? 8239) || (c =? 8287) ||
  (c =? 12288).

Definition NL : chr := 10.
Definition COLON : chr := 58.
Definition HASH : chr := 35.
Definition COMMA : chr := 44.

Definition is_upper_ascii (c : chr) : bool := (65 <=? c) && (c <=? 90).
Definition is_lower_ascii (c : chr) : bool := (97 <=? c) && (c <=? 122).
Definition is_digit_ascii (c : chr) : bool := (48 <=? c) && (c <=? 57).

(** The Unicode tables XID_Start, XID_Continue and Nd (decimal digit) built into the regex crate.
    They are not spelled out: every theorem holds for all tables that satisfy the laws below,
    which are facts of the Unicode Character Database (Start is included in Continue, neither
    contains white space, and the ASCII part is as listed). *)
Class UnicodeTables := {
  xid_start : chr -> bool;
  xid_continue : chr -> bool;
  is_nd : chr -> bool;
  xid_start_continue : forall c, xid_start c = true -> xid_continue c = true;
  xid_continue_not_ws : forall c, xid_continue c = true -> is_ws c = false;
  xid_start_ascii : forall c, c < 128 -> xid_start c = is_upper_ascii c || is_lower_ascii c;
  xid_continue_ascii : forall c, c < 128 ->
    xid_continue c = is_upper_ascii c || is_lower_ascii c || is_digit_ascii c || (c =? 95);
  is_nd_ascii : forall c, c < 128 -> is_nd c = is_digit_ascii c
}.

(** [str::trim_start], [trim_end], [trim] *)
Fixpoint trim_start (s : str) : str :=
  match s with
  | c :: s' => if is_ws c then trim_start s' else s
  | [] => []
  end.
Definition trim_end (s : str) : str := rev (trim_start (rev s)).
Definition trim (s : str) : str := trim_end (trim_start s).

(** [str::split(c)] for a character; never empty *)
Fixpoint split_on (sep : chr) (s : str) : list str :=
  match s with
  | [] => [[]]
  | c :: s' =>
      if c =? sep then [] :: split_on sep s'
      else match split_on sep s' with
           | x :: xs => (c :: x) :: xs
           | [] => [[c]]
           end
  end.

(** [str::starts_with] / [ends_with] for a character *)
Definition starts_with_c (c : chr) (s : str) : bool :=
  match s with x :: _ => x =? c | [] => false end.
Definition ends_with_c (c : chr) (s : str) : bool := starts_with_c c (rev s).

(** Number of bytes of the UTF-8 encoding ([char::len_utf8]) *)
Definition utf8_len (c : chr) : N :=
  if c <? 128 then 1 else if c <? 2048 then 2 else if c <? 65536 then 3 else 4.
Definition byte_len (s : str) : N := fold_right (fun c n => utf8_len c + n) 0 s.

(** The longest prefix of characters satisfying [p], and the rest. *)
Fixpoint span (p : chr -> bool) (s : str) : str * str :=
  match s with
  | c :: s' => if p c then let '(a, b) := span p s' in (c :: a, b) else ([], s)
  | [] => ([], [])
  end.

(** ** Facts *)
Lemma span_eq p s : fst (span p s) ++ snd (span p s) = s.
Proof.
  induction s as [|c s IH]; cbn; [reflexivity|].
  destruct (p c); [|reflexivity]. destruct (span p s) as [a b]. cbn in *. congruence.
Qed.

Lemma span_all p s : forallb p (fst (span p s)) = true.
Proof.
  induction s as [|c s IH]; cbn; [reflexivity|].
  destruct (p c) eqn:E; [|reflexivity]. destruct (span p s) as [a b]. cbn in *. rewrite E. exact IH.
Qed.

Lemma span_stop p s c r : snd (span p s) = c :: r -> p c = false.
Proof.
  induction s as [|x s IH]; cbn; [discriminate|].
  destruct (p x) eqn:E.
  - destruct (span p s) as [a b]. cbn in *. exact IH.
  - cbn. intros H. inversion H; subst. exact E.
Qed.

Lemma span_app p a b :
  forallb p a = true -> match b with c :: _ => p c = false | [] => True end ->
  span p (a ++ b) = (a, b).
Proof.
  induction a as [|c a IH]; cbn; intros Ha Hb.
  - destruct b as [|c b]; cbn; [reflexivity|]. rewrite Hb. reflexivity.
  - apply andb_true_iff in Ha. destruct Ha as [H1 H2]. rewrite H1, IH by assumption. reflexivity.
Qed.

Lemma trim_start_span s : trim_start s = snd (span is_ws s).
Proof.
  induction s as [|c s IH]; cbn; [reflexivity|].
  destruct (is_ws c); [|reflexivity]. destruct (span is_ws s). exact IH.
Qed.

Lemma trim_start_ws a s : forallb is_ws a = true -> trim_start (a ++ s) = trim_start s.
Proof.
  induction a as [|c a IH]; cbn; intros Ha; [reflexivity|].
  apply andb_true_iff in Ha. destruct Ha as [H1 H2]. rewrite H1. auto.
Qed.

Lemma trim_start_all s : forallb is_ws s = true -> trim_start s = [].
Proof. intros H. rewrite <- (app_nil_r s). rewrite trim_start_ws by exact H. reflexivity. Qed.

Lemma trim_start_nil s : trim_start s = [] <-> forallb is_ws s = true.
Proof.
  split; [|apply trim_start_all]. induction s as [|c s IH]; cbn; [reflexivity|].
  destruct (is_ws c); [exact IH|discriminate].
Qed.

Lemma trim_start_head c s : is_ws c = false -> trim_start (c :: s) = c :: s.
Proof. cbn. intros ->. reflexivity. Qed.

Lemma forallb_rev {A} (p : A -> bool) l : forallb p (rev l) = forallb p l.
Proof.
  induction l as [|a l IH]; cbn; [reflexivity|].
  rewrite forallb_app, IH. cbn. rewrite andb_true_r, andb_comm. reflexivity.
Qed.

Lemma trim_end_ws s b : forallb is_ws b = true -> trim_end (s ++ b) = trim_end s.
Proof.
  intros H. unfold trim_end. rewrite rev_app_distr, trim_start_ws; [reflexivity|].
  rewrite forallb_rev. exact H.
Qed.

Lemma trim_end_last s c : is_ws c = false -> trim_end (s ++ [c]) = s ++ [c].
Proof.
  intros H. unfold trim_end. rewrite rev_app_distr. cbn. rewrite H. cbn.
  rewrite rev_involutive. reflexivity.
Qed.

Lemma trim_end_all s : forallb is_ws s = true -> trim_end s = [].
Proof. intros H. unfold trim_end. rewrite trim_start_all; [reflexivity|]. rewrite forallb_rev. exact H. Qed.

(** A string is: white space, or white space, a trimmed nonempty core, white space. *)
Lemma trim_start_decomp s : exists a, s = a ++ trim_start s /\ forallb is_ws a = true.
Proof.
  exists (fst (span is_ws s)). rewrite trim_start_span, span_eq. split; [reflexivity|apply span_all].
Qed.

Lemma trim_end_decomp s : exists b, s = trim_end s ++ b /\ forallb is_ws b = true.
Proof.
  destruct (trim_start_decomp (rev s)) as (a & Ha & Hw). exists (rev a).
  unfold trim_end. rewrite <- rev_app_distr, <- Ha, rev_involutive. split; [reflexivity|].
  rewrite forallb_rev. exact Hw.
Qed.

Definition trimmed (s : str) : Prop :=
  match s with [] => True | c :: _ => is_ws c = false end /\
  match rev s with [] => True | c :: _ => is_ws c = false end.

Lemma trim_start_first s : match trim_start s with [] => True | c :: _ => is_ws c = false end.
Proof.
  induction s as [|c s IH]; cbn; [exact I|]. destruct (is_ws c) eqn:E; [exact IH|exact E].
Qed.

Lemma trim_end_first s :
  match s with [] => True | c :: _ => is_ws c = false end ->
  match trim_end s with [] => True | c :: _ => is_ws c = false end.
Proof.
  intros Hs. destruct (trim_end_decomp s) as (b & Hb & _).
  destruct (trim_end s) as [|c t] eqn:E; [exact I|].
  rewrite Hb in Hs. exact Hs.
Qed.

Lemma trim_trimmed s : trimmed (trim s).
Proof.
  unfold trim, trimmed. split.
  - apply trim_end_first, trim_start_first.
  - unfold trim_end. rewrite rev_involutive. apply trim_start_first.
Qed.

Lemma trim_id s : trimmed s -> trim s = s.
Proof.
  intros [H1 H2]. unfold trim.
  assert (Hs : trim_start s = s) by (destruct s as [|c s]; cbn; [reflexivity|rewrite H1; reflexivity]).
  rewrite Hs. unfold trim_end.
  assert (Hr : trim_start (rev s) = rev s)
    by (destruct (rev s) as [|c t]; cbn; [reflexivity|rewrite H2; reflexivity]).
  rewrite Hr. apply rev_involutive.
Qed.

Lemma trim_nil s : trim s = [] <-> forallb is_ws s = true.
Proof.
  split.
  - intros H. unfold trim in H. destruct (trim_end_decomp (trim_start s)) as (b & Hb & Hw).
    rewrite H in Hb. cbn in Hb.
    destruct (trim_start_decomp s) as (a & Ha & Hwa). rewrite Ha, Hb, forallb_app, Hwa, Hw. reflexivity.
  - intros H. unfold trim. rewrite trim_start_all by exact H. reflexivity.
Qed.

(** ** An instance: ASCII only (used in examples; the laws are satisfiable) *)
#[export] Instance ascii_tables : UnicodeTables.
Proof.
  refine {| xid_start := fun c => is_upper_ascii c || is_lower_ascii c;
            xid_continue := fun c => is_upper_ascii c || is_lower_ascii c || is_digit_ascii c || (c =? 95);
            is_nd := is_digit_ascii |}.
  - intros c ->. reflexivity.
  - intros c H. unfold is_upper_ascii, is_lower_ascii, is_digit_ascii in H.
    assert (Hr : 48 <= c <= 122).
    { repeat (apply orb_true_iff in H; destruct H as [H|H]);
        repeat (apply andb_true_iff in H; destruct H as [? H]);
        repeat match goal with
               | H : (_ <=? _) = true |- _ => apply N.leb_le in H
               | H : (_ =? _) = true |- _ => apply N.eqb_eq in H
               end; lia. }
    unfold is_ws.
    rewrite (proj2 (N.leb_gt c 13)), (proj2 (N.leb_gt 8192 c)) by lia.
    rewrite ?(proj2 (N.eqb_neq c _)) by lia. rewrite andb_false_r. reflexivity.
  - reflexivity.
  - reflexivity.
  - reflexivity.
Defined.

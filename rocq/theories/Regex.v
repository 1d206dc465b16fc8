(** The subset of the `regex` crate (1.10) used by /repo.

    Semantics: leftmost-first (Perl-like), as documented by the crate: the match starts as far
    left as possible; among the matches starting there, alternatives are tried left to right,
    greedy repetitions prefer one more iteration, lazy ones prefer to stop.  An iteration of a
    repetition must consume a character (only `^*` of markdown.rs:21 is affected).
    No multi-line mode: `^` is the start and `$` the end of the text. *)
From Verif Require Import Base Unicode.

Inductive re :=
| Cls (p : chr -> bool)
| Eps
| Seq (a b : re)
| Alt (a b : re)
| Star (greedy : bool) (a : re)
| Grp (n : nat) (a : re)
| Bol
| Eol.

Definition Plus (greedy : bool) (a : re) : re := Seq a (Star greedy a).
Definition Opt (a : re) : re := Alt a Eps.
Definition Chr (c : chr) : re := Cls (N.eqb c).
(** `.`: everything but a line feed *)
Definition dot (c : chr) : bool := negb (N.eqb c NL).

(** Position in the text (number of characters before), remaining text and captured groups
    (latest first). *)
Record mst := mkMst { m_pos : nat; m_rest : str; m_caps : list (nat * str) }.

Definition orelse {A} (x y : option A) : option A := match x with Some _ => x | None => y end.

Fixpoint bm (r : re) (s : mst) (k : mst -> option mst) {struct r} : option mst :=
  match r with
  | Cls p =>
      match m_rest s with
      | c :: w => if p c then k (mkMst (S (m_pos s)) w (m_caps s)) else None
      | [] => None
      end
  | Eps => k s
  | Seq a b => bm a s (fun s' => bm b s' k)
  | Alt a b => orelse (bm a s k) (bm b s k)
  | Star g a =>
      (fix loop (n : nat) (s : mst) {struct n} : option mst :=
         match n with
         | O => k s
         | S n' =>
             let more := bm a s (fun s' => if Nat.ltb (m_pos s) (m_pos s') then loop n' s' else None) in
             if g then orelse more (k s) else orelse (k s) more
         end) (length (m_rest s)) s
  | Grp n a =>
      bm a s (fun s' =>
        k (mkMst (m_pos s') (m_rest s')
             ((n, firstn (m_pos s' - m_pos s) (m_rest s)) :: m_caps s')))
  | Bol => if Nat.eqb (m_pos s) 0 then k s else None
  | Eol => match m_rest s with [] => k s | _ => None end
  end.

(** Try to match at each position from left to right. *)
Fixpoint search (r : re) (pos : nat) (w : str) : option mst :=
  orelse (bm r (mkMst pos w []) Some)
         (match w with [] => None | _ :: w' => search r (S pos) w' end).

(** [Regex::captures] *)
Definition captures (r : re) (w : str) : option (list (nat * str)) :=
  match search r 0 w with Some s => Some (m_caps s) | None => None end.
(** [Regex::is_match] *)
Definition is_match (r : re) (w : str) : bool :=
  match search r 0 w with Some _ => true | None => false end.

(** [Captures::get(n)] as text *)
Fixpoint group (n : nat) (caps : list (nat * str)) : option str :=
  match caps with
  | (m, t) :: cs => if Nat.eqb n m then Some t else group n cs
  | [] => None
  end.

(** ** Repetition of a character class *)
Section ClassStar.
  Context (p : chr -> bool) (k : mst -> option mst).

  (** Matching the remaining text [w], with [a] the part already consumed. *)
  Fixpoint greedy_run (pos : nat) (w : str) (caps : list (nat * str)) : option mst :=
    match w with
    | c :: w' =>
        if p c then orelse (greedy_run (S pos) w' caps) (k (mkMst pos w caps))
        else k (mkMst pos w caps)
    | [] => k (mkMst pos w caps)
    end.
  Fixpoint lazy_run (pos : nat) (w : str) (caps : list (nat * str)) : option mst :=
    match w with
    | c :: w' =>
        orelse (k (mkMst pos w caps)) (if p c then lazy_run (S pos) w' caps else None)
    | [] => k (mkMst pos w caps)
    end.

  Lemma orelse_none_r {A} (x : option A) : orelse x None = x.
  Proof. destruct x; reflexivity. Qed.

  Lemma bm_star_greedy s :
    bm (Star true (Cls p)) s k = greedy_run (m_pos s) (m_rest s) (m_caps s).
  Proof.
    destruct s as [pos w caps]. cbn [m_pos m_rest m_caps bm].
    revert pos. induction w as [|c w IH]; intros pos; [reflexivity|].
    cbn [length]. cbn [m_rest m_pos m_caps]. cbn [greedy_run].
    destruct (p c); [|reflexivity]. replace (Nat.ltb pos (S pos)) with true by (symmetry; apply Nat.ltb_lt; lia).
    rewrite <- IH. reflexivity.
  Qed.

  Lemma bm_star_lazy s :
    bm (Star false (Cls p)) s k = lazy_run (m_pos s) (m_rest s) (m_caps s).
  Proof.
    destruct s as [pos w caps]. cbn [m_pos m_rest m_caps bm].
    revert pos. induction w as [|c w IH]; intros pos; [reflexivity|].
    cbn [length]. cbn [m_rest m_pos m_caps]. cbn [lazy_run].
    destruct (p c); [|reflexivity]. replace (Nat.ltb pos (S pos)) with true by (symmetry; apply Nat.ltb_lt; lia).
    rewrite <- IH. reflexivity.
  Qed.

  (** If the continuation cannot start at a character of the class, only the whole run counts. *)
  Lemma greedy_max a b pos caps :
    forallb p a = true -> match b with c :: _ => p c = false | [] => True end ->
    (forall pos c w caps, p c = true -> k (mkMst pos (c :: w) caps) = None) ->
    greedy_run pos (a ++ b) caps = k (mkMst (pos + length a) b caps).
  Proof.
    intros Ha Hb Hk. revert pos. induction a as [|c a IH]; intros pos; cbn [app length].
    - rewrite Nat.add_0_r. destruct b as [|c b]; cbn [greedy_run]; [reflexivity|]. rewrite Hb. reflexivity.
    - cbn [forallb] in Ha. apply andb_true_iff in Ha. destruct Ha as [H1 H2].
      cbn [greedy_run]. rewrite H1, (IH H2), Hk by exact H1.
      rewrite orelse_none_r. f_equal. f_equal. lia.
  Qed.

  (** If the continuation succeeds after the whole run, that is the result. *)
  Lemma greedy_first a b pos caps x :
    forallb p a = true -> match b with c :: _ => p c = false | [] => True end ->
    k (mkMst (pos + length a) b caps) = Some x ->
    greedy_run pos (a ++ b) caps = Some x.
  Proof.
    intros Ha Hb. revert pos. induction a as [|c a IH]; intros pos Hk; cbn [app length] in *.
    - rewrite Nat.add_0_r in Hk. destruct b as [|c b]; cbn [greedy_run]; [exact Hk|]. rewrite Hb. exact Hk.
    - cbn [forallb] in Ha. apply andb_true_iff in Ha. destruct Ha as [H1 H2].
      cbn [greedy_run]. rewrite H1, (IH H2); [reflexivity|]. rewrite <- Hk. f_equal. f_equal. lia.
  Qed.

  (** A greedy run fails if the continuation fails at each stop. *)
  Lemma greedy_none w pos caps :
    (forall a b, w = a ++ b -> forallb p a = true -> k (mkMst (pos + length a) b caps) = None) ->
    greedy_run pos w caps = None.
  Proof.
    revert pos. induction w as [|c w IH]; intros pos H; cbn [greedy_run].
    - specialize (H [] [] eq_refl eq_refl). cbn in H. rewrite Nat.add_0_r in H. exact H.
    - assert (Hk : k (mkMst pos (c :: w) caps) = None).
      { specialize (H [] (c :: w) eq_refl eq_refl). cbn [length] in H. rewrite Nat.add_0_r in H. exact H. }
      destruct (p c) eqn:E; [|exact Hk]. rewrite Hk, IH; [reflexivity|].
      intros a b -> Ha. specialize (H (c :: a) b eq_refl). cbn [forallb length] in H. rewrite E in H.
      specialize (H Ha). rewrite <- H. f_equal. f_equal. lia.
  Qed.

  (** A lazy run stops at the first place where the continuation succeeds. *)
  Lemma lazy_first a b pos caps x :
    forallb p a = true ->
    (forall a1 a2, a = a1 ++ a2 -> a2 <> [] -> k (mkMst (pos + length a1) (a2 ++ b) caps) = None) ->
    k (mkMst (pos + length a) b caps) = Some x ->
    lazy_run pos (a ++ b) caps = Some x.
  Proof.
    intros Ha. revert pos. induction a as [|c a IH]; intros pos Hn Hk; cbn [app length] in *.
    - rewrite Nat.add_0_r in Hk. destruct b as [|c b]; cbn [lazy_run]; [exact Hk|]. rewrite Hk. reflexivity.
    - cbn [forallb] in Ha. apply andb_true_iff in Ha. destruct Ha as [H1 H2].
      cbn [lazy_run]. rewrite H1.
      assert (Hh : k (mkMst pos (c :: a ++ b) caps) = None).
      { specialize (Hn [] (c :: a) eq_refl ltac:(discriminate)). cbn [length app] in Hn.
        rewrite Nat.add_0_r in Hn. exact Hn. }
      rewrite Hh. cbn [orelse]. apply IH; [exact H2| |].
      + intros a1 a2 -> Hne. specialize (Hn (c :: a1) a2 eq_refl Hne). cbn [length] in Hn.
        rewrite <- Hn. f_equal. f_equal. lia.
      + rewrite <- Hk. f_equal. f_equal. lia.
  Qed.

  Lemma lazy_none w pos caps :
    (forall a b, w = a ++ b -> forallb p a = true -> k (mkMst (pos + length a) b caps) = None) ->
    lazy_run pos w caps = None.
  Proof.
    revert pos. induction w as [|c w IH]; intros pos H; cbn [lazy_run].
    - specialize (H [] [] eq_refl eq_refl). cbn in H. rewrite Nat.add_0_r in H. exact H.
    - assert (Hk : k (mkMst pos (c :: w) caps) = None).
      { specialize (H [] (c :: w) eq_refl eq_refl). cbn [length] in H. rewrite Nat.add_0_r in H. exact H. }
      rewrite Hk. cbn [orelse]. destruct (p c) eqn:E; [|reflexivity]. apply IH.
      intros a b -> Ha. specialize (H (c :: a) b eq_refl). cbn [forallb length] in H. rewrite E in H.
      specialize (H Ha). rewrite <- H. f_equal. f_equal. lia.
  Qed.
End ClassStar.

(** Continuations may be replaced by pointwise equal ones. *)
Lemma bm_ext r : forall s k k', (forall s', k s' = k' s') -> bm r s k = bm r s k'.
Proof.
  induction r as [p| |a IHa b IHb|a IHa b IHb|g a IHa|n a IHa| |]; intros s k k' H; cbn [bm].
  - destruct (m_rest s); [reflexivity|]. destruct (p c); auto.
  - apply H.
  - apply IHa. intros s'. apply IHb, H.
  - rewrite (IHa s k k' H), (IHb s k k' H). reflexivity.
  - generalize (length (m_rest s)). intros n. revert s. induction n as [|n IHn]; intros s; [apply H|].
    assert (E : forall s0, bm a s0 (fun s' => if Nat.ltb (m_pos s0) (m_pos s') then
      (fix loop (n : nat) (s : mst) {struct n} : option mst :=
         match n with
         | O => k s
         | S n' =>
             let more := bm a s (fun s' => if Nat.ltb (m_pos s) (m_pos s') then loop n' s' else None) in
             if g then orelse more (k s) else orelse (k s) more
         end) n s' else None) =
      bm a s0 (fun s' => if Nat.ltb (m_pos s0) (m_pos s') then
      (fix loop (n : nat) (s : mst) {struct n} : option mst :=
         match n with
         | O => k' s
         | S n' =>
             let more := bm a s (fun s' => if Nat.ltb (m_pos s) (m_pos s') then loop n' s' else None) in
             if g then orelse more (k' s) else orelse (k' s) more
         end) n s' else None)).
    { intros s0. apply IHa. intros s'. destruct (Nat.ltb _ _); [apply IHn|reflexivity]. }
    cbn zeta. rewrite E, H. reflexivity.
  - apply IHa. intros s'. apply H.
  - destruct (Nat.eqb _ _); auto.
  - destruct (m_rest s); auto.
Qed.

(** Code spans in Markdown, as CommonMark 0.30 (section 6.1) reads them. *)
From Verif Require Import Base OMap Models.
Open Scope N_scope.

Definition TICK : chr := 96.
(** The backticks at the beginning, and the rest. *)
Fixpoint ticks (s : str) : nat * str :=
  match s with
  | [] => (O, [])
  | c :: r => if c =? TICK then let '(n, x) := ticks r in (S n, x) else (O, s)
  end.
(** The text before the first string of exactly [n] backticks, and the text behind it; [k] backticks have just been read. *)
Fixpoint close (n k : nat) (s : str) : option (str * str) :=
  match s with
  | [] => if Nat.eqb k n then Some ([], []) else None
  | c :: r =>
      if c =? TICK then close n (S k) r
      else if Nat.eqb k n then Some ([], s)
      else match close n O r with Some (a, b) => Some (repeat TICK k ++ c :: a, b) | None => None end
  end.
(** The code span at the beginning of the text: what is between the backticks, and the rest of the text. *)
Definition raw_span (s : str) : option (str * str) :=
  let '(n, r) := ticks s in match n with O => None | _ => close n O r end.
(** One blank is taken off at both ends, unless there are blanks only. *)
Definition BLANK : chr := 32.
Definition strip (s : str) : str :=
  match s with
  | c :: r =>
      match rev r with
      | d :: x => if (c =? BLANK) && (d =? BLANK) && negb (forallb (fun e => e =? BLANK) s) then rev x else s
      | [] => s
      end
  | [] => s
  end.
Definition code_span (s : str) : option (str * str) :=
  match raw_span s with Some (a, b) => Some (strip a, b) | None => None end.

(** Texts that can stand between strings of [n] backticks. *)
Definition starts_tick (s : str) : Prop := exists r, s = TICK :: r.
Definition ends_tick (s : str) : Prop := exists r, s = r ++ [TICK].
Definition has_string (n : nat) (s : str) : Prop :=
  exists a b, s = a ++ repeat TICK n ++ b /\ ~ ends_tick a /\ ~ starts_tick b.
(** A blank at both ends, and something else between. *)
Definition padded (s : str) : Prop := exists x, s = BLANK :: x ++ [BLANK] /\ exists c, In c x /\ c <> BLANK.
Definition code_text (n : nat) (s : str) : Prop :=
  s <> [] /\ ~ starts_tick s /\ ~ ends_tick s /\ ~ has_string n s /\ ~ padded s.

(** The titles a message about a wrong title is about: that of the requirement, and that of the reference. *)
Definition wrong_title (e : error) (expected : option str) (used : str) : Prop :=
  exists u l loc, (e = ECoveredWithWrongTitle u l used loc /\ expected = req_title u) \/
                  (e = EDependWithWrongTitle u l used loc /\ expected = req_title l).

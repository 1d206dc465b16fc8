(** Model of the text form and the order of locations, /repo/src/models.rs:113-230, and of the
    parts of the standard library it uses (decimal numbers). *)
From Verif Require Import Base OMap Models Unicode Regex.
Open Scope N_scope.

(** ** Decimal numbers *)
(** `{}` of a [usize] *)
Fixpoint show_digits (fuel : nat) (n : N) (acc : str) : str :=
  match fuel with
  | O => acc
  | S f =>
      let acc' := (48 + n mod 10) :: acc in
      if n / 10 =? 0 then acc' else show_digits f (n / 10) acc'
  end.
Definition show_N (n : N) : str := show_digits (S (N.size_nat n)) n [].

(** [usize::MAX] + 1 on a 64 bit machine *)
Definition USIZE : N := 18446744073709551616.

(** [str::parse::<usize>] for texts without sign; the error is its display text *)
Definition invalid_digit : str := L "invalid digit found in string".
Definition too_large : str := L "number too large to fit in target type".
Fixpoint parse_digits (s : str) (acc : N) : N + str :=
  match s with
  | [] => inl acc
  | c :: s' =>
      if is_digit_ascii c then
        if 10 * acc + (c - 48) <? USIZE then parse_digits s' (10 * acc + (c - 48)) else inr too_large
      else inr invalid_digit
  end.

(** ** Display *)
(** models.rs:147-155 *)
Definition show_in_file (l : location_in_file) : str :=
  match l with
  | Line n => show_N n
  | LineAndColumn n c => show_N n ++ [COLON] ++ show_N c
  | LocString s => s
  end.
(** models.rs:222-230 *)
Definition show_location (l : location) : str :=
  match loc_in_file l with
  | Some i => loc_file l ++ [COLON] ++ show_in_file i
  | None => loc_file l
  end.

(** ** Order *)
(** models.rs:120-145; [None]: not comparable *)
Definition cmp_pair (a b : N * N) : comparison := cmp a b.
Definition cmp_in_file (x y : location_in_file) : option comparison :=
  match x with
  | Line l =>
      match y with
      | Line l' => Some (N.compare l l')
      | LineAndColumn l' c' => Some (cmp_pair (l, 0) (l', c'))
      | LocString _ => None
      end
  | LineAndColumn l c =>
      match y with
      | Line l' => Some (cmp_pair (l, c) (l', 0))
      | LineAndColumn l' c' => Some (cmp_pair (l, c) (l', c'))
      | LocString _ => None
      end
  | LocString s =>
      match y with
      | Line _ | LineAndColumn _ _ => None
      | LocString s' => Some (cmp s s')
      end
  end.
(** models.rs:258-262 *)
Definition cmp_requirement (x y : requirement) : option comparison := Some (cmp (req_id x) (req_id y)).

(** ** Parsing *)
Section Parse.
  Context {U : UnicodeTables}.

  (** models.rs:164 `^(?P<file>.+?)(?::(?P<line>\d+))?(?::(?P<column>\d+))?$`;
      the groups file, line, column are 1, 2, 3 *)
  Definition LOCATION_RE : re :=
    Seq Bol (Seq (Grp 1 (Plus false (Cls dot)))
      (Seq (Opt (Seq (Chr COLON) (Grp 2 (Plus true (Cls is_nd)))))
        (Seq (Opt (Seq (Chr COLON) (Grp 3 (Plus true (Cls is_nd))))) Eol))).

  (** models.rs:193-219; [Panic] if the group file is missing ([caps["file"]]) *)
  Definition parse_location (s : str) : outcome (location + str) :=
    match captures LOCATION_RE s with
    | None => Done (inr (L "Invalid Location"))
    | Some caps =>
        let* file := unwrap (group 1 caps) in
        Done
          (match group 2 caps with
           | Some line =>
               match parse_digits line 0 with
               | inr e => inr (L "Error parsing line " ++ line ++ L ": " ++ e)
               | inl l =>
                   match group 3 caps with
                   | Some column =>
                       match parse_digits column 0 with
                       | inr e => inr (L "Error parsing column " ++ column ++ L ": " ++ e)
                       | inl c => inl (mkLocation file (Some (LineAndColumn l c)))
                       end
                   | None => inl (mkLocation file (Some (Line l)))
                   end
               end
           | None => inl (mkLocation file None)
           end)
    end.
End Parse.

(** Tests of models.rs (mod tests) *)
Example location_tests :
  parse_location (L "file") = Done (inl (mkLocation (L "file") None)) /\
  parse_location (L "file:1") = Done (inl (mkLocation (L "file") (Some (Line 1)))) /\
  parse_location (L "file:1:2") = Done (inl (mkLocation (L "file") (Some (LineAndColumn 1 2)))).
Proof. vm_compute. auto. Qed.

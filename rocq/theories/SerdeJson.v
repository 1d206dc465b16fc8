(** Model of the parts of serde_json 1.0.114 that /repo uses: [serde_json::to_writer_pretty]
    (formatters/mod.rs:26,53) and [serde_json::from_reader] (controller.rs:83), as functions
    between text and JSON values.

    Simplifications: a number that is not a plain natural number is read as [JOtherNum] (no type
    of /repo accepts one, so it makes no difference which one it is); members that are not used by
    /repo are read like all others, whereas serde_json does not look at surrogates and UTF-8 in
    their strings; the error text is not modelled. *)
From Verif Require Import Base OMap Models Unicode Location Utf8 Serialize Formatters.
Open Scope N_scope.

(** ** Writing *)
Definition BACKSLASH : chr := 92.
Definition QUOTE : chr := 34.
Definition hex_digit (n : N) : chr := if n <? 10 then 48 + n else 87 + n.
(** ser.rs, format_escaped_str_contents and the table ESCAPE *)
Definition escape_char (c : chr) : str :=
  if c =? 34 then [BACKSLASH; 34]
  else if c =? 92 then [BACKSLASH; 92]
  else if c =? 8 then [BACKSLASH; 98]
  else if c =? 9 then [BACKSLASH; 116]
  else if c =? 10 then [BACKSLASH; 110]
  else if c =? 12 then [BACKSLASH; 102]
  else if c =? 13 then [BACKSLASH; 114]
  else if c <? 32 then [BACKSLASH; 117; 48; 48; hex_digit (c / 16); hex_digit (c mod 16)]
  else [c].
Definition write_string (s : str) : str := [QUOTE] ++ flat_map escape_char s ++ [QUOTE].
(** a line break and two blanks for each level *)
Definition new_line (level : nat) : str := [NL] ++ repeat 32 (2 * level).

(** PrettyFormatter; [level] is its current_indent *)
Fixpoint write_json (level : nat) (v : json) : str :=
  match v with
  | JNull => L "null"
  | JBool b => if b then L "true" else L "false"
  | JNum n => show_N n
  | JOtherNum => L "0.5" (* not written by /repo *)
  | JStr s => write_string s
  | JArr [] => L "[]"
  | JArr l =>
      L "[" ++ join (L ",") (map (fun x => new_line (S level) ++ write_json (S level) x) l) ++
      new_line level ++ L "]"
  | JObj [] => L "{}"
  | JObj l =>
      L "{" ++ join (L ",") (map (fun e => new_line (S level) ++ write_string (fst e) ++ L ": " ++
                                           write_json (S level) (snd e)) l) ++
      new_line level ++ L "}"
  end.

#[export] Instance serde_json : JsonText := {| json_pretty := write_json 0 |}.

(** ** Reading *)
Definition json_blank (c : chr) : bool := (c =? 32) || (c =? 9) || (c =? 10) || (c =? 13).
Fixpoint skip_blanks (s : str) : str :=
  match s with
  | c :: s' => if json_blank c then skip_blanks s' else s
  | [] => []
  end.

Definition hex_value (c : chr) : option N :=
  if is_digit_ascii c then Some (c - 48)
  else if (97 <=? c) && (c <=? 102) then Some (c - 87)
  else if (65 <=? c) && (c <=? 70) then Some (c - 55)
  else None.
Definition hex4 (a b c d : chr) : option N :=
  match hex_value a, hex_value b, hex_value c, hex_value d with
  | Some x, Some y, Some z, Some w => Some (4096 * x + 256 * y + 16 * z + w)
  | _, _, _, _ => None
  end.
Definition unescape (e : chr) : option chr :=
  if e =? 34 then Some 34
  else if e =? 92 then Some 92
  else if e =? 47 then Some 47
  else if e =? 98 then Some 8
  else if e =? 102 then Some 12
  else if e =? 110 then Some 10
  else if e =? 114 then Some 13
  else if e =? 116 then Some 9
  else None.
Definition high_surrogate (n : N) : bool := (55296 <=? n) && (n <=? 56319).
Definition low_surrogate (n : N) : bool := (56320 <=? n) && (n <=? 57343).

Definition put (c : chr) (o : option (str * str)) : option (str * str) :=
  match o with Some (t, r) => Some (c :: t, r) | None => None end.
(** the characters up to the closing quote, and what follows *)
Fixpoint read_chars (s : str) : option (str * str) :=
  match s with
  | [] => None
  | c :: s1 =>
      if c =? 34 then Some ([], s1)
      else if c =? 92 then
        match s1 with
        | [] => None
        | e :: s2 =>
            if e =? 117 then
              match s2 with
              | h1 :: h2 :: h3 :: h4 :: s3 =>
                  match hex4 h1 h2 h3 h4 with
                  | None => None
                  | Some n =>
                      if low_surrogate n then None
                      else if high_surrogate n then
                        match s3 with
                        | b :: u :: g1 :: g2 :: g3 :: g4 :: s4 =>
                            if (b =? 92) && (u =? 117) then
                              match hex4 g1 g2 g3 g4 with
                              | Some m =>
                                  if low_surrogate m
                                  then put (65536 + 1024 * (n - 55296) + (m - 56320)) (read_chars s4)
                                  else None
                              | None => None
                              end
                            else None
                        | _ => None
                        end
                      else put n (read_chars s3)
                  end
              | _ => None
              end
            else match unescape e with
                 | Some x => put x (read_chars s2)
                 | None => None
                 end
        end
      else if c <? 32 then None
      else put c (read_chars s1)
  end.

(** digits that may stand before the point: no superfluous zero *)
Definition plain_int (ds : str) : bool :=
  match ds with
  | [] => false
  | c :: ds' => negb (c =? 48) || is_nil ds'
  end.
(** the part after the point, if there is one *)
Definition read_fraction (s : str) : option (bool * str) :=
  match s with
  | c :: s' =>
      if c =? 46 then let '(ds, r) := span is_digit_ascii s' in if is_nil ds then None else Some (true, r)
      else Some (false, s)
  | [] => Some (false, s)
  end.
(** the exponent, if there is one *)
Definition read_exponent (s : str) : option (bool * str) :=
  match s with
  | c :: s' =>
      if (c =? 101) || (c =? 69) then
        let s'' := match s' with x :: y => if (x =? 43) || (x =? 45) then y else s' | [] => s' end in
        let '(ds, r) := span is_digit_ascii s'' in if is_nil ds then None else Some (true, r)
      else Some (false, s)
  | [] => Some (false, s)
  end.
Definition value_of_digits (ds : str) : N := fold_left (fun a c => 10 * a + (c - 48)) ds 0.
Definition read_minus (s : str) : bool * str :=
  match s with c :: s' => if c =? 45 then (true, s') else (false, s) | [] => (false, s) end.
Definition read_number (s : str) : option (json * str) :=
  let '(minus, s1) := read_minus s in
  let '(ds, s2) := span is_digit_ascii s1 in
  if plain_int ds then
    match read_fraction s2 with
    | None => None
    | Some (frac, s3) =>
        match read_exponent s3 with
        | None => None
        | Some (exp, s4) =>
            Some (if minus || frac || exp then JOtherNum else JNum (value_of_digits ds), s4)
        end
    end
  else None.

Fixpoint strip_prefix (p s : str) : option str :=
  match p, s with
  | [], _ => Some s
  | c :: p', x :: s' => if c =? x then strip_prefix p' s' else None
  | _ :: _, [] => None
  end.
Definition read_word (w : string) (v : json) (s : str) : option (json * str) :=
  match strip_prefix (L w) s with Some r => Some (v, r) | None => None end.

(** de.rs: a value; the elements after `[` or `,` up to `]`; the members after `{` or `,` up to `}` *)
Fixpoint read_value (fuel : nat) (s : str) : option (json * str) :=
  match fuel with
  | O => None
  | S f =>
      match s with
      | [] => None
      | c :: s' =>
          if c =? 34 then match read_chars s' with Some (t, r) => Some (JStr t, r) | None => None end
          else if c =? 91 then
            match skip_blanks s' with
            | [] => None
            | x :: r =>
                if x =? 93 then Some (JArr [], r)
                else match read_elements f (x :: r) with Some (l, r) => Some (JArr l, r) | None => None end
            end
          else if c =? 123 then
            match skip_blanks s' with
            | [] => None
            | x :: r =>
                if x =? 125 then Some (JObj [], r)
                else match read_members f (x :: r) with Some (l, r) => Some (JObj l, r) | None => None end
            end
          else if c =? 110 then read_word "null" JNull s
          else if c =? 116 then read_word "true" (JBool true) s
          else if c =? 102 then read_word "false" (JBool false) s
          else read_number s
      end
  end
with read_elements (fuel : nat) (s : str) : option (list json * str) :=
  match fuel with
  | O => None
  | S f =>
      match read_value f s with
      | None => None
      | Some (v, r) =>
          match skip_blanks r with
          | [] => None
          | x :: r' =>
              if x =? 93 then Some ([v], r')
              else if x =? 44 then
                match read_elements f (skip_blanks r') with Some (l, r) => Some (v :: l, r) | None => None end
              else None
          end
      end
  end
with read_members (fuel : nat) (s : str) : option (list (str * json) * str) :=
  match fuel with
  | O => None
  | S f =>
      match s with
      | [] => None
      | q :: s1 =>
          if q =? 34 then
            match read_chars s1 with
            | None => None
            | Some (k, r1) =>
                match skip_blanks r1 with
                | [] => None
                | x :: r2 =>
                    if x =? 58 then
                      match read_value f (skip_blanks r2) with
                      | None => None
                      | Some (v, r3) =>
                          match skip_blanks r3 with
                          | [] => None
                          | y :: r4 =>
                              if y =? 125 then Some ([(k, v)], r4)
                              else if y =? 44 then
                                match read_members f (skip_blanks r4) with
                                | Some (l, r) => Some ((k, v) :: l, r)
                                | None => None
                                end
                              else None
                          end
                      end
                    else None
                end
            end
          else None
      end
  end.

(** a value with blanks around, nothing else *)
Definition read_json (s : str) : option json :=
  match read_value (2 * length s + 1) (skip_blanks s) with
  | Some (v, r) => if is_nil (skip_blanks r) then Some v else None
  | None => None
  end.
(** [serde_json::from_reader] *)
Definition from_reader (r : reader) : option json :=
  match read_to_string r with
  | ROk s => read_json s
  | RErr _ => None
  end.

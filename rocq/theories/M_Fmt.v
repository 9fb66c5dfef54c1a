(** fmt.Printf of Go 1.15 with a format and no other argument, which is how
    PrintRecords prints the names of columns (print.go:153, 155): doPrintf with
    len(a) = 0. Text is a sequence of bytes. *)
From Verif Require Export M_Json.

Definition cPercent : ascii := "037"%char.
(** The loop over the flags. *)
Definition is_flag (c : ascii) : bool := bool_decide (c ∈ ["#"; "0"; "+"; "-"; " "]%char).
Fixpoint skip_flags (s : string) : string :=
  match s with String c r => if is_flag c then skip_flags r else s | "" => "" end.
(** parsenum: is there a number, and the rest; a large number ends the text. *)
Fixpoint parsenum_ (num : Z) (seen : bool) (s : string) : bool * string :=
  match s with
  | "" => (seen, "")
  | String c r =>
      match digit c with
      | Some d => if decide (1000000 < num)%Z then (false, "") else parsenum_ (num * 10 + d) true r
      | None => (seen, s)
      end
  end.
Definition parsenum (s : string) : bool * string := parsenum_ 0 false s.
(** The text up to the first closing bracket, and what follows it. *)
Fixpoint to_bracket (s : string) : option (string * string) :=
  match s with
  | "" => None
  | String c r => if decide (c = "]"%char) then Some ("", r) else p ← to_bracket r; Some (String c p.1, p.2)
  end.
(** argNumber with parseArgNumber: [found], whether goodArgNum stays true, the
    rest. No index is smaller than the number of arguments. *)
Definition arg_number (s : string) : bool * bool * string :=
  match s with
  | String c r =>
      if decide (c = "["%char) then
        if decide (String.length s < 3) then (false, false, r) else
        match to_bracket r with
        | Some (num, r') => (bool_decide (parsenum num = (true, "")), false, r')
        | None => (false, false, r)
        end
      else (false, true, s)
  | "" => (false, true, "")
  end.
(** One verb, after the percent sign: what is written, and the rest of the
    format; [None] at its end. *)
Definition width_part (s : string) (after good : bool) : string * bool * bool * string :=
  match s with
  | String c r =>
      if decide (c = "*"%char) then ("%!(BADWIDTH)", false, good, r)
      else let '(present, r) := parsenum s in ("", after, good && negb (after && present), r)
  | "" => ("", after, good, "")
  end.
Definition prec_part (s : string) (after good : bool) : string * bool * bool * string :=
  match s with
  | String c r =>
      if decide (c = "."%char) then
        let good := good && negb after in
        let '(after, g, r) := arg_number r in
        match r with
        | String c' r' =>
            if decide (c' = "*"%char) then ("%!(BADPREC)", false, good && g, r')
            else ("", after, good && g, (parsenum r).2)
        | "" => ("", after, good && g, "")
        end
      else ("", after, good, s)
  | "" => ("", after, good, "")
  end.
(** The verb, with utf8.DecodeRuneInString. *)
Definition verb_part (s : string) (good : bool) : string * option string :=
  match s with
  | "" => ("%!(NOVERB)", None)
  | String c r =>
      if decide (c = cPercent) then ("%", Some r) else
      let tail := if good then "(MISSING)" else "(BADINDEX)" in
      match rune_len s with
      | 0 => ("%!" +:+ replacement +:+ tail, Some r)
      | k => ("%!" +:+ stake k s +:+ tail, Some (sdrop k s))
      end
  end.
Definition one_verb (s : string) : string * option string :=
  let s := skip_flags s in
  let '(after, good, s) := arg_number s in
  let '(o1, after, good, s) := width_part s after good in
  let '(o2, after, good, s) := prec_part s after good in
  let '(good, s) := if after then (good, s) else let '(_, g, r) := arg_number s in (good && g, r) in
  let '(o3, rest) := verb_part s good in
  (o1 +:+ o2 +:+ o3, rest).
(** formatLoop; [n]: more than the length of the format. *)
Fixpoint printf0_ (n : nat) (s : string) : string :=
  match n, s with
  | S n, String c r =>
      if decide (c = cPercent) then
        match one_verb r with
        | (o, Some r) => o +:+ printf0_ n r
        | (o, None) => o
        end
      else String c (printf0_ n r)
  | _, _ => ""
  end.
Definition printf0 (s : string) : string := printf0_ (String.length s) s.
Definition fmt_prt (base : PrintRT) : PrintRT :=
  {| pr_float := @pr_float base; pr_addr := @pr_addr base; pr_format := printf0 |}.

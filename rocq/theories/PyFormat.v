(** * PyFormat: str.format on texts and ints.
    Templates with [{}], [{name}], [{:spec}], [{name:spec}] and, inside a spec, [{}] and [{name}]; [{{] and [}}].
    A spec is [[fill]align][0][width][type], the type being s, d or none. Everything else is [FUnknown]. *)
From Verif Require Import PyBase.
Local Open Scope string_scope.
Local Open Scope list_scope.
Local Open Scope N_scope.

Inductive farg := FStr (s : pystr) | FInt (n : Z).
Inductive fres := FText (s : pystr) | FError (why : pystr) | FUnknown.   (* FError: ValueError *)

(** ** Templates *)
Inductive piece := Plain (c : N) | Field (name : pystr) (spec : list (N + pystr)).   (* a spec: characters, nested names *)
Inductive scanning :=
| Outside | Closing                                     (* after a single closing brace *)
| InName (opened : bool) (name : pystr)                 (* [opened]: just after the brace *)
| InSpec (name : pystr) (spec : list (N + pystr))
| InNested (name : pystr) (spec : list (N + pystr)) (nested : pystr).
Definition name_char (c : N) : bool := (97 <=? c) && (c <=? 122) || (65 <=? c) && (c <=? 90) || (c =? 95).
Definition after {A} (x : A) (l : option (list A)) : option (list A) := option_map (cons x) l.
Fixpoint scan (st : scanning) (t : pystr) : option (list piece) :=
  match t with
  | [] => match st with Outside => Some [] | _ => None end
  | c :: t' =>
      match st with
      | Outside => if c =? 123 then scan (InName true []) t' else if c =? 125 then scan Closing t' else after (Plain c) (scan Outside t')
      | Closing => if c =? 125 then after (Plain c) (scan Outside t') else None
      | InName opened name =>
          if opened && (c =? 123) then after (Plain c) (scan Outside t')
          else if c =? 125 then after (Field name []) (scan Outside t')
          else if c =? 58 then scan (InSpec name []) t'
          else if name_char c then scan (InName false (name ++ [c])) t' else None
      | InSpec name spec =>
          if c =? 125 then after (Field name spec) (scan Outside t')
          else if c =? 123 then scan (InNested name spec []) t'
          else scan (InSpec name (spec ++ [inl c])) t'
      | InNested name spec nested =>
          if c =? 125 then scan (InSpec name (spec ++ [inr nested])) t'
          else if name_char c then scan (InNested name spec (nested ++ [c])) t' else None
      end
  end.

(** ** The format of a text or an int: format(x, spec) *)
Inductive align := Leftward | Rightward | Centred | Inside.
Definition align_of (c : N) : option align :=
  if c =? 60 then Some Leftward else if c =? 62 then Some Rightward else if c =? 94 then Some Centred else if c =? 61 then Some Inside else None.
Fixpoint take_digits (n : N) (t : pystr) : N * pystr :=
  match t with
  | c :: t' => if is_digit c then take_digits (n * 10 + (c - 48)) t' else (n, t)
  | [] => (n, [])
  end.
Definition starts_with_one (l : pystr) (t : pystr) : bool := match t with c :: _ => existsb (N.eqb c) l | [] => false end.
Record layout := { l_fill : N; l_align : align; l_width : N; l_type : option N }.
Inductive parsed := Layout (l : layout) | Invalid | Unknown.
Definition parse_spec (usual : align) (spec : pystr) : parsed :=
  let '(fill, al, rest) :=
    match spec with
    | f :: a :: r => match align_of a with
                     | Some al => (Some f, Some al, r)
                     | None => match align_of f with Some al => (None, Some al, a :: r) | None => (None, None, spec) end
                     end
    | [f] => match align_of f with Some al => (None, Some al, []) | None => (None, None, spec) end
    | [] => (None, None, [])
    end in
  if starts_with_one (u "+- #z") rest then Unknown else
  let '(fill, al, rest) :=
    match fill with
    | None => if starts_with_one (u "0") rest
              then (Some 48, match al, usual with None, Rightward => Some Inside | _, _ => al end, tl rest)
              else (None, al, rest)
    | _ => (fill, al, rest)
    end in
  let (w, rest) := take_digits 0 rest in
  if starts_with_one (u ",_.") rest then Unknown else
  match rest with
  | [] | [_] => Layout {| l_fill := match fill with Some f => f | None => 32 end;
                          l_align := match al with Some a => a | None => usual end; l_width := w; l_type := hd_error rest |}
  | _ => Invalid
  end.
(** [sign] and [body] in a field. *)
Definition lay_out (l : layout) (sign body : pystr) : pystr :=
  let missing := (N.to_nat (l_width l) - length (sign ++ body))%nat in
  match l_align l with
  | Leftward => sign ++ body ++ repeat (l_fill l) missing
  | Rightward => repeat (l_fill l) missing ++ sign ++ body
  | Centred => repeat (l_fill l) (Nat.div2 missing) ++ sign ++ body ++ repeat (l_fill l) (missing - Nat.div2 missing)
  | Inside => sign ++ repeat (l_fill l) missing ++ body
  end.

Definition of_type (c : N) (ty : option N) : bool := match ty with Some c' => c =? c' | None => true end.
Section Format.
  Variable E : pyenv.
  (** [widths]: the ints that stand in the spec. *)
  Definition format_one (x : farg) (spec : pystr) (widths : list Z) : fres :=
    match x with
    | FStr s =>
        match parse_spec Leftward spec with
        | Layout l => match l_align l, l_type l with
                      | Inside, _ => FUnknown
                      | _, ty => if of_type 115 ty then FText (lay_out l [] s) else FUnknown
                      end
        | _ => FUnknown
        end
    | FInt n =>
        match parse_spec Rightward spec with
        | Layout l => if negb (of_type 100 (l_type l)) then FUnknown
                      else if prints E n then FText (lay_out l (if (n <? 0)%Z then u "-" else []) (dec (Z.abs_N n)))
                      else FError (u "Exceeds the limit for integer string conversion")
        | Invalid => match widths with
                     | [w] => if str_eqb spec (u "0" ++ zstr w ++ u "d") then FError (format_why E w) else FUnknown
                     | _ => FUnknown
                     end
        | Unknown => FUnknown
        end
    end.
  Fixpoint keyword (name : pystr) (kws : list (string * option farg)) : option farg :=
    match kws with [] => None | (k, x) :: kws' => if str_eqb (u k) name then x else keyword name kws' end.
  (** The argument a name stands for; the number of positional arguments used so far. *)
  Definition argument (name : pystr) (args : list (option farg)) (kws : list (string * option farg)) (n : nat) : option (farg * nat) :=
    match name with
    | [] => match nth_error args n with Some (Some x) => Some (x, S n) | _ => None end
    | _ => match keyword name kws with Some x => Some (x, n) | None => None end
    end.
  Fixpoint spec_text (spec : list (N + pystr)) (args : list (option farg)) (kws : list (string * option farg)) (n : nat) : option (pystr * list Z * nat) :=
    match spec with
    | [] => Some ([], [], n)
    | inl c :: spec' => match spec_text spec' args kws n with Some (t, ws, n') => Some (c :: t, ws, n') | None => None end
    | inr name :: spec' =>
        match argument name args kws n with
        | Some (x, n1) =>
            match spec_text spec' args kws n1 with
            | Some (t, ws, n') => Some (match x with FStr s => s ++ t | FInt w => zstr w ++ t end, match x with FStr _ => ws | FInt w => w :: ws end, n')
            | None => None
            end
        | None => None
        end
    end.
  Fixpoint format_pieces (ps : list piece) (args : list (option farg)) (kws : list (string * option farg)) (n : nat) : fres :=
    match ps with
    | [] => FText []
    | Plain c :: ps' => match format_pieces ps' args kws n with FText t => FText (c :: t) | r => r end
    | Field name spec :: ps' =>
        match argument name args kws n with
        | Some (x, n1) =>
            match spec_text spec args kws n1 with
            | Some (t, ws, n2) =>
                match format_one x t ws with
                | FText s => match format_pieces ps' args kws n2 with FText s' => FText (s ++ s') | r => r end
                | r => r
                end
            | None => FUnknown
            end
        | None => FUnknown
        end
    end.
  Definition str_format (t : pystr) (args : list (option farg)) (kws : list (string * option farg)) : fres :=
    match scan Outside t with Some ps => format_pieces ps args kws 0 | None => FUnknown end.
End Format.

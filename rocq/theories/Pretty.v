(** * Pretty: what pp has to print, stated declaratively.

    Written from the docstring of pp (tools.py:18-56) and the comments of its
    helpers; uses the value types of Tools.v but none of its functions. *)
From Coq Require Import Permutation.
From Verif Require Import PyBase Types Numerals Texts Tools.

(** A dict given to pp. *)
Definition ppdoc := list (pykey * ppval).
Definition shows (d : ppdoc) (k : pystr) : Prop := In (KStr k) (map fst d).

(** ** Folding a long value *)
(** The parts of [obj] printed on lines of [width] characters: the longest prefix
    that fits, again and again, but at least one byte at a time. *)
Definition cut_bytes (width : Z) (obj : bytes) (parts : list bytes) : Prop :=
  concat parts = obj
  /\ Forall (fun p => p <> [] /\ (length p = 1%nat \/ (zlen (repr_bytes p) <= width)%Z)) parts
  /\ (forall pre p b q post, parts = pre ++ p :: (b :: q) :: post ->
      (width < zlen (repr_bytes (p ++ [b])))%Z).
(** The number of characters of a str printed per line: two columns go to the
    quotes, but at least one character per line. *)
Definition per_line (width : Z) : nat := Nat.max 1 (Z.to_nat (width - 2)).
Definition cut_str (width : Z) (obj : pystr) (parts : list pystr) : Prop :=
  concat parts = obj
  /\ Forall (fun p => p <> [] /\ (length p <= per_line width)%nat) parts
  /\ (forall pre p q post, parts = pre ++ p :: q :: post -> length p = per_line width).

(** ** One entry *)
(** What is shown of a value: the length prefix, if any, and the data. *)
Inductive parts_of : ppval -> ppobj -> ppobj -> Prop :=
| PartsObj o : parts_of (PObj o) (OBytes []) o
| PartsDict l d : parts_of (PDict l d) (match l with Some x => x | None => OBytes [] end)
                           (match d with Some x => x | None => OBytes [] end).
(** The length of an object, if it has one, and how it is written. *)
Definition elements (o : ppobj) : option nat :=
  match o with OStr s => Some (length s) | OBytes b => Some (length b) | OOther n _ => n end.
Definition written (E : pyenv) (o : ppobj) : pystr :=
  match o with OStr s => repr_str E s | OBytes b => repr_bytes b | OOther _ r => r end.
Definition newline : pystr := [10%N].
Definition spaces (n : Z) : pystr := repeat 32%N (Z.to_nat n).
(** The text of a value on lines of [line_width], starting at column [indent]. *)
Inductive body_of (E : pyenv) (indent line_width : Z) : ppobj -> pystr -> Prop :=
| BodyStr s : (indent + zlen (repr_str E s) <= line_width)%Z \/ (length s <= 1)%nat ->
    body_of E indent line_width (OStr s) (repr_str E s)
| BodyBytes b : (indent + zlen (repr_bytes b) <= line_width)%Z \/ (length b <= 1)%nat ->
    body_of E indent line_width (OBytes b) (repr_bytes b)
| FoldStr s parts : (line_width < indent + zlen (repr_str E s))%Z -> (1 < length s)%nat ->
    cut_str (line_width - indent) s parts ->
    body_of E indent line_width (OStr s)
      (between (newline ++ spaces indent) (map (repr_str E) parts))
| FoldBytes b parts : (line_width < indent + zlen (repr_bytes b))%Z -> (1 < length b)%nat ->
    cut_bytes (line_width - indent) b parts ->
    body_of E indent line_width (OBytes b)
      (between (newline ++ spaces indent) (map repr_bytes parts))
| BodyOther n r : body_of E indent line_width (OOther n r) r.
(** The description column. *)
Inductive description (sp : spec) (desc_width : Z) (k : pystr) : pystr -> Prop :=
| NoDescription : (desc_width <= 0)%Z -> description sp desc_width k []
| Description fs desc : (0 < desc_width)%Z -> sget k sp = Some fs -> fs_desc fs = Some desc ->
    description sp desc_width k
      (u " " ++ column (Z.to_nat desc_width) (firstn (Z.to_nat desc_width) desc)).
(** The length prefix column: empty for an empty length. *)
Inductive prefix_of (E : pyenv) (l : ppobj) : pystr -> Prop :=
| NoPrefix : elements l = Some 0%nat -> prefix_of E l []
| Prefix n : elements l = Some (S n) -> prefix_of E l (written E l ++ u " ").
(** The columns taken by what precedes the value. *)
Definition indent_of (desc_width : Z) (prefix : pystr) : Z :=
  (5 + (if 0 <? desc_width then desc_width + 1 else 0) + zlen prefix)%Z.
Inductive entry_of (E : pyenv) (sp : spec) (desc_width line_width : Z) (d : ppdoc) (k : pystr)
  : pystr -> Prop :=
| Entry v l o desc prefix body : In (KStr k, v) d -> parts_of v l o ->
    description sp desc_width k desc -> prefix_of E l prefix ->
    body_of E (indent_of desc_width prefix) line_width o body ->
    entry_of E sp desc_width line_width d k
      (column 3 k ++ desc ++ u ": " ++ prefix ++ body ++ newline).

(** ** All entries *)
(** The header is shown only when the spec has one. *)
Inductive header_shown (sp : spec) (d : ppdoc) : list pystr -> Prop :=
| HeaderAbsent : ~ shows d (u "h") -> header_shown sp d []
| HeaderOff fs ml : shows d (u "h") -> sget (u "h") sp = Some fs -> fs_max_len fs = Some ml ->
    (ml <= 0)%Z -> header_shown sp d []
| HeaderOn fs ml : shows d (u "h") -> sget (u "h") sp = Some fs -> fs_max_len fs = Some ml ->
    (0 < ml)%Z -> header_shown sp d [u "h"].
Inductive if_shown (d : ppdoc) (k : pystr) : list pystr -> Prop :=
| IsShown : shows d k -> if_shown d k [k]
| NotShown : ~ shows d k -> if_shown d k [].
(** [ks]: the numeric keys of the dict by increasing number, and two spellings of
    the same number in the order of the dict. *)
Definition numbered (E : pyenv) (d : ppdoc) (ks : list pystr) : Prop :=
  (forall k, In k ks <-> shows d k /\ isnumeric E k = true)
  /\ (NoDup (map fst d) -> NoDup ks)
  /\ (forall k, In k ks -> exists n, int_text E k n)
  /\ (forall pre j mid k post m n, ks = pre ++ j :: mid ++ k :: post ->
      int_text E j m -> int_text E k n ->
      (m < n)%Z \/ (m = n /\ exists d1 v d2 w d3, d = d1 ++ (KStr j, v) :: d2 ++ (KStr k, w) :: d3)).
(** The keys in the order of the output. *)
Inductive shown_keys (E : pyenv) (sp : spec) (d : ppdoc) : list pystr -> Prop :=
| ShownKeys h t p ks : header_shown sp d h -> if_shown d (u "t") t -> if_shown d (u "p") p ->
    numbered E d ks -> shown_keys E sp d (h ++ t ++ p ++ ks).

(** No two keys denote the same number. *)
Definition distinct_numbers (E : pyenv) (d : ppdoc) : Prop :=
  forall j k n, shows d j -> shows d k -> isnumeric E j = true -> isnumeric E k = true -> int_text E j n -> int_text E k n -> j = k.

(** ** Text *)
(** A Python str: characters are Unicode code points. *)
Definition valid_text (s : pystr) : Prop := Forall (fun c => (c < 1114112)%N) s.

(** Values made of str and bytes alone, as in the dicts of decode() and encode(). *)
Definition ordinary_obj (o : ppobj) : Prop :=
  match o with OStr s => valid_text s | OBytes _ => True | OOther _ _ => False end.
Definition ordinary (v : ppval) : Prop := forall l o, parts_of v l o -> ordinary_obj l /\ ordinary_obj o.
(** Lengths that look alike: the same, or both empty. *)
Definition same_length (l1 l2 : ppobj) : Prop :=
  l1 = l2 \/ (elements l1 = Some 0%nat /\ elements l2 = Some 0%nat).

(** ** Output lines *)
(** No line is longer than [w]: no stretch of text without a line break is. *)
Definition lines_fit (w : Z) (out : pystr) : Prop :=
  forall a l b, out = a ++ l ++ b -> ~ In 10%N l -> (zlen l <= w)%Z.
(** The widths leave room for each single byte or character of the value, or for
    the whole of an object that is never folded. *)
Definition room (E : pyenv) (desc_width line_width : Z) (v : ppval) : Prop :=
  forall l o prefix, parts_of v l o -> prefix_of E l prefix ->
  match o with
  | OBytes b => forall x, x = [] \/ (exists c, x = [c] /\ In c b) ->
      (indent_of desc_width prefix + zlen (repr_bytes x) <= line_width)%Z
  | OStr s => forall x, x = [] \/ (exists c, x = [c] /\ In c s) ->
      (indent_of desc_width prefix + zlen (repr_str E x) <= line_width)%Z
  | OOther _ r => (indent_of desc_width prefix + zlen r <= line_width)%Z
  end.
(** repr() shows the text as it is: no character needs an escape, and there are
    not both kinds of quotes. *)
Definition unescaped (E : pyenv) (s : pystr) : Prop :=
  (forall c, In c s -> zlen (repr_str E [c]) = 3%Z) /\ ~ (In 39%N s /\ In 34%N s).

(** ** When pp fails *)
(** spec[k][name] is missing; the KeyError names [nm]. *)
Definition lacks {A} (sp : spec) (k : pystr) (get : fspec -> option A) (name nm : pystr) : Prop :=
  (sget k sp = None /\ nm = k) \/ (exists fs, sget k sp = Some fs /\ get fs = None /\ nm = name).
(** The entry of [k] cannot be printed: there is no description, or the length has
    no length itself; [part] is what is written of the entry. *)
Inductive entry_stops (sp : spec) (desc_width : Z) (d : ppdoc) (k : pystr) : exn -> pystr -> Prop :=
| StopDescription nm : (0 < desc_width)%Z -> lacks sp k fs_desc (u "desc") nm ->
    entry_stops sp desc_width d k (XKeyError nm) (column 3 k)
| StopLength v l o desc : In (KStr k, v) d -> parts_of v l o -> elements l = None ->
    description sp desc_width k desc ->
    entry_stops sp desc_width d k (XTypeError (u "object has no len()")) (column 3 k ++ desc ++ u ": ").
(** The output [out] when pp raises: the entries before the failure, and the part
    of the entry that cannot be printed. *)
Inductive pp_stops (E : pyenv) (sp : spec) (desc_width line_width : Z) (d : ppdoc)
  : exn -> pystr -> Prop :=
| StopHeader nm : shows d (u "h") -> lacks sp (u "h") fs_max_len (u "max_len") nm ->
    pp_stops E sp desc_width line_width d (XKeyError nm) []
| StopEntry h t p ks done k rest es x part :
    header_shown sp d h -> if_shown d (u "t") t -> if_shown d (u "p") p ->
    ks = [] \/ numbered E d ks -> h ++ t ++ p ++ ks = done ++ k :: rest ->
    Forall2 (entry_of E sp desc_width line_width d) done es ->
    entry_stops sp desc_width d k x part ->
    pp_stops E sp desc_width line_width d x (concat es ++ part)
| StopNumber h t p es k :
    header_shown sp d h -> if_shown d (u "t") t -> if_shown d (u "p") p ->
    Forall2 (entry_of E sp desc_width line_width d) (h ++ t ++ p) es ->
    shows d k -> isnumeric E k = true -> not_int E k ->
    pp_stops E sp desc_width line_width d XValueError (concat es).

(** Everything pp needs. *)
Definition pp_ready (E : pyenv) (sp : spec) (desc_width : Z) (d : ppdoc) : Prop :=
  (shows d (u "h") -> exists fs ml, sget (u "h") sp = Some fs /\ fs_max_len fs = Some ml)
  /\ (forall k, shows d k -> isnumeric E k = true -> exists n, int_text E k n)
  /\ (forall k, shows d k ->
      isnumeric E k = true \/ k = u "t" \/ k = u "p"
      \/ (k = u "h" /\ exists fs ml, sget (u "h") sp = Some fs /\ fs_max_len fs = Some ml /\ (0 < ml)%Z) ->
      ((0 < desc_width)%Z -> exists fs desc, sget k sp = Some fs /\ fs_desc fs = Some desc)
      /\ forall v l o, In (KStr k, v) d -> parts_of v l o -> elements l <> None).

(** * Names: conversion of objects to and from camelCase (util.py:483-538).

    Strings are ASCII (Coq strings): Python's [str.lower], [str.title], [\d] and [\W] are modelled on ASCII only;
    every key of every declaration is ASCII. *)
From Verif Require Import PyVal Bits Float64 Adapters.
Open Scope char_scope.

Definition code (a : ascii) : nat := nat_of_ascii a.
Definition between (lo hi : ascii) (a : ascii) : bool := Nat.leb (code lo) (code a) && Nat.leb (code a) (code hi).
Definition is_up := between "A" "Z".
Definition is_low := between "a" "z".
Definition is_dig := between "0" "9".
Definition is_letter (a : ascii) : bool := is_up a || is_low a.
Definition upper_ascii (a : ascii) : ascii := if is_low a then ascii_of_nat (code a - 32) else a.
(** [a-z\d] *)
Definition is_ld (a : ascii) : bool := is_low a || is_dig a.
(** \W *)
Definition is_nonword (a : ascii) : bool := negb (is_letter a || is_dig a || Ascii.eqb a "_").

Definition chars := list ascii.
Fixpoint chars_of (s : string) : chars := match s with EmptyString => [] | String a s' => a :: chars_of s' end.
Fixpoint string_of (l : chars) : string := match l with [] => EmptyString | a :: l' => String a (string_of l') end.

(** str.title: the first letter of every run of letters is put in upper case, the others in lower case *)
Fixpoint title_from (in_word : bool) (l : chars) : chars :=
  match l with
  | [] => []
  | a :: l' => (if is_letter a then (if in_word then lower_ascii a else upper_ascii a) else a) :: title_from (is_letter a) l'
  end.
Definition title (l : chars) : chars := title_from false l.
(** s.split("_"): never empty *)
Fixpoint split_us (l : chars) : chars * list chars :=
  match l with
  | [] => ([], [])
  | a :: l' => let (h, t) := split_us l' in if Ascii.eqb a "_" then ([], h :: t) else (a :: h, t)
  end.
(** util.py:483-488 (the None argument, which no key is, is not modelled) *)
Definition camel_chars (l : chars) : chars :=
  let (head, tail) := split_us (map (fun a => if Ascii.eqb a " " then "_" else a) (map lower_ascii l)) in
  head ++ concat (map title tail).
Definition camelcase (s : string) : string := string_of (camel_chars (chars_of s)).

(** util.py:491-493: re.findall of
    [A-Z]?[a-z\d]+ | [A-Z]{1,}(?=[A-Z][a-z]|\d|\W|$) | \d+
    Alternatives are tried in order, repetitions are greedy and give back characters one by one.  The third
    alternative never applies: the first one matches wherever it would. *)
Fixpoint span (p : ascii -> bool) (l : chars) : chars * chars :=
  match l with
  | [] => ([], [])
  | a :: l' => if p a then let (x, y) := span p l' in (a :: x, y) else ([], l)
  end.
Definition match1 (l : chars) : option (chars * chars) :=
  match l with
  | [] => None
  | a :: l' =>
      match (if is_up a then let (x, y) := span is_ld l' in match x with [] => None | _ => Some (a :: x, y) end else None) with
      | Some r => Some r
      | None => let (x, y) := span is_ld l in match x with [] => None | _ => Some (x, y) end
      end
  end.
(** (?=[A-Z][a-z]|\d|\W|$); [$] also holds before a final newline, which is a \W *)
Definition lookahead (l : chars) : bool :=
  match l with
  | [] => true
  | a :: l' => (is_up a && match l' with b :: _ => is_low b | [] => false end) || is_dig a || is_nonword a
  end.
Fixpoint give_back (n : nat) (l : chars) : option (chars * chars) :=
  match n with
  | O => None
  | S n' => if lookahead (skipn n l) then Some (firstn n l, skipn n l) else give_back n' l
  end.
Definition match2 (l : chars) : option (chars * chars) := give_back (length (fst (span is_up l))) l.
Fixpoint findall (fuel : nat) (l : chars) : list chars :=
  match fuel, l with
  | O, _ | _, [] => []
  | S f, a :: l' =>
      match match1 l with
      | Some (w, r) => w :: findall f r
      | None => match match2 l with
                | Some (w, r) => w :: findall f r
                | None => findall f l'
                end
      end
  end.
Fixpoint join_us (ws : list chars) : chars :=
  match ws with
  | [] => []
  | [w] => w
  | w :: ws' => w ++ "_" :: join_us ws'
  end.
Definition snake_chars (l : chars) : chars := join_us (map (map lower_ascii) (findall (length l) l)).
Definition snakecase (s : string) : string := string_of (snake_chars (chars_of s)).
Open Scope Z_scope.

(** ** datetime and date attributes *)
(** date.fromordinal: year, month, day of the day [z] counted from 1970-01-01 *)
Definition year_of (n : Z) : Z :=
  let y := 400 * n / 146097 + 1 in
  if days_before_year (y + 1) <=? n then y + 1 else if n <? days_before_year y then y - 1 else y.
Fixpoint month_from (y k : Z) (fuel : nat) (m : nat) : nat :=
  match fuel with
  | O => m
  | S f => if days_before_month y (S m) <=? k then month_from y k f (S m) else m
  end.
Definition civil_of (z : Z) : Z * Z * Z :=
  let n := z + epoch_day in
  let y := year_of n in
  let k := n - days_before_year y in
  let m := month_from y k 11 1 in
  (y, Z.of_nat m, k - days_before_month y m + 1).

Definition hex_digit (z : Z) : Z := if z <? 10 then 48 + z else 87 + z.
(** bytes.hex *)
Definition hex (l : list Z) : list Z := flat_map (fun b => [hex_digit (b / 16); hex_digit (b mod 16)]) l.
(** util.py:512-522 *)
Definition case_datetime (us off : Z) : val :=
  let t := us + off * 1000000 in
  let day := t / 86400000000 in
  let r := t mod 86400000000 in
  let '(y, m, d) := civil_of day in
  VDict [("year"%string, VInt y); ("month"%string, VInt m); ("day"%string, VInt d);
         ("hour"%string, VInt (r / 3600000000)); ("minute"%string, VInt (r / 60000000 mod 60)); ("second"%string, VInt (r / 1000000 mod 60));
         ("microsecond"%string, VInt (r mod 1000000)); ("timeZoneOffset"%string, VFloat (rnd64 (off # 60)))].
(** util.py:524-525 *)
Definition case_date (day : Z) : val :=
  let '(y, m, d) := civil_of day in VDict [("year"%string, VInt y); ("month"%string, VInt m); ("day"%string, VInt d)].

(** util.py:496-530.  A decoded object is a construct Container: its entry "_name" is also its attribute [_name].
    (A plain dict has no such attribute; the result of a conversion has no such entry.)  In a dict comprehension a
    later key that is converted to the same name overwrites the earlier value. *)
Fixpoint case_val (case : string -> string) (v : val) : val :=
  match v with
  | VDict d =>
      let go := fix go (d : dict) (acc : dict) : dict :=
        match d with
        | [] => acc
        | (k, x) :: d' => go d' (if hidden k then acc else dset (case k) (case_val case x) acc)
        end in
      match dget "_name" d with
      | Some (VStr n) => match n with [] => VDict (go d []) | _ => VDict [(string_of (map (fun z => ascii_of_nat (Z.to_nat z)) n), VDict (go d []))] end
      | _ => VDict (go d [])
      end
  | VList l | VSet l => VList (map (case_val case) l)
  | VEnum _ z => VInt z
  | VBytes l => VStr (hex l)
  | VDateTime us off => case_datetime us off
  | VDate day => case_date day
  | VTimedelta us => VFloat (rnd64 (us # 1000000))
  | _ => v
  end.
Fixpoint case_dict (case : string -> string) (d : dict) (acc : dict) : dict :=
  match d with
  | [] => acc
  | (k, x) :: d' => case_dict case d' (if hidden k then acc else dset (case k) (case_val case x) acc)
  end.
Definition to_camelcase_dict := case_val camelcase.
Definition to_snakecase_dict := case_val snakecase.

(** * Capnp: the generator of the Cap'n Proto schema (capnproto/generator.py).

    Python's dictionaries are mutable objects that the visitor reaches by several ways (a stack, a table of structs
    by name, a table of types by name, and the entry of an enclosing dictionary), so they live in a heap of
    numbered cells.  Type texts are ASCII strings. *)
From Verif Require Import PyVal Names.
Open Scope list_scope.

(** ** Declarations, as [convert] tells them apart (generator.py:58-183).
    The first argument of each node is the module-level variable that holds it, if any (generator.py:34-52);
    [message_name] is always known except below a FocusedSeq.  *)
Inductive gcon :=
| GStruct (name : option string) (subs : list gcon)                     (* Struct *)
| GSwitch (name : option string) (cases : list (string * gcon)) (default : option (string * gcon))
                                                                        (* Switch: the names of the cases (an IntEnum's name, or str of the key); name_for_default *)
| GSelect (name : option string) (subs : list gcon)                     (* Select *)
| GRenamed (field : string) (sub : gcon)                                (* "field" / sub *)
| GIf (sub : gcon)                                                      (* IfThenElse without else *)
| GText (name : option string)                                          (* StringEncoded *)
| GMany (sub : gcon)                                                    (* GreedyRange, Array *)
| GFocused (name : option string) (sub : gcon)                          (* FocusedSeq: the construct below the field it is built from *)
| GSkip                                                                 (* Pass, StopIf, Computed *)
| GWrap (name : option string) (sub : gcon)                             (* any other construct with a _subcon or subcon *)
| GLeaf (name : option string) (type : option string).                  (* any other construct; what make_type answers (206-242) *)

(** what make_type answers for a construct of any kind (generator.py:206-242): wrappers have no type of their own *)
Definition make_type (c : gcon) : option string :=
  match c with
  | GText _ => Some "Text"%string
  | GLeaf _ t => t
  | _ => None
  end.

(** ** The visitor (generator.py:186-287) *)
Inductive entry :=
| EType (t : string)
| EUnion (ref : nat).
Definition scope := list (option string * entry).          (* a dict; None is the key of an unnamed member *)
Record visitor := { heap : list scope; types : list (string * nat); structs : list (string * nat);
                    stack : list (option string * nat); has_union : bool }.

Definition okey_eqb (a b : option string) : bool :=
  match a, b with
  | Some x, Some y => String.eqb x y
  | None, None => true
  | _, _ => false
  end.
Fixpoint sget (k : option string) (s : scope) : option entry :=
  match s with
  | [] => None
  | (j, e) :: s' => if okey_eqb k j then Some e else sget k s'
  end.
Fixpoint sset (k : option string) (e : entry) (s : scope) : scope :=
  match s with
  | [] => [(k, e)]
  | (j, e') :: s' => if okey_eqb k j then (j, e) :: s' else (j, e') :: sset k e s'
  end.
Fixpoint nget (k : string) (l : list (string * nat)) : option nat :=
  match l with [] => None | (j, r) :: l' => if String.eqb k j then Some r else nget k l' end.
Fixpoint nset (k : string) (r : nat) (l : list (string * nat)) : list (string * nat) :=
  match l with [] => [(k, r)] | (j, r') :: l' => if String.eqb k j then (j, r) :: l' else (j, r') :: nset k r l' end.
Fixpoint ndel (k : string) (l : list (string * nat)) : list (string * nat) :=
  match l with [] => [] | (j, r) :: l' => if String.eqb k j then l' else (j, r) :: ndel k l' end.
Fixpoint hset (r : nat) (s : scope) (h : list scope) : list scope :=
  match h, r with
  | [], _ => []
  | _ :: h', O => s :: h'
  | x :: h', S r' => x :: hset r' s h'
  end.
Definition hget (r : nat) (h : list scope) : scope := nth r h [].

Definition ocamel (f : option string) : option string := match f with Some f => Some (camelcase f) | None => None end.
(** self.current[k] = e *)
Definition put (k : option string) (e : entry) (v : visitor) : res visitor :=
  match stack v with
  | (_, r) :: _ => Ok {| heap := hset r (sset k e (hget r (heap v))) (heap v); types := types v; structs := structs v; stack := stack v; has_union := has_union v |}
  | [] => Err EOther
  end.
Definition list_of (many : bool) (t : string) : string := if many then ("List(" ++ t ++ ")")%string else t.
(** generator.py:244-249 *)
Definition enter_struct (field : option string) (name : string) (many : bool) (v : visitor) : res visitor :=
  let* v := put (ocamel field) (EType (list_of many name)) v in
  Ok (match nget name (structs v) with
      | Some r => {| heap := heap v; types := types v; structs := structs v; stack := (Some name, r) :: stack v; has_union := has_union v |}
      | None => let r := length (heap v) in
                {| heap := heap v ++ [[]]; types := types v; structs := nset name r (structs v); stack := (Some name, r) :: stack v; has_union := has_union v |}
      end).
(** generator.py:251-256.  Simplification: entering a union where a member of the same name already is (not a union)
    fails here; in Python it fails when the first member of the union is stored. *)
Definition enter_union (field : option string) (v : visitor) : res visitor :=
  match stack v with
  | [] => Err EOther
  | (_, c) :: _ =>
      match sget (ocamel field) (hget c (heap v)) with
      | Some (EUnion r) => Ok {| heap := heap v; types := types v; structs := structs v; stack := (ocamel field, r) :: stack v; has_union := true |}
      | Some (EType _) => Err EOther
      | None => let r := length (heap v) in
                Ok {| heap := hset c (sset (ocamel field) (EUnion r) (hget c (heap v))) (heap v) ++ [[]]; types := types v; structs := structs v;
                      stack := (ocamel field, r) :: stack v; has_union := true |}
      end
  end.
(** generator.py:258-267 *)
Definition exit (v : visitor) : res visitor :=
  match stack v with
  | [] => Err EOther
  | (name, r) :: st =>
      if Nat.eqb (length (stack v)) 3 then
        if has_union v then Ok {| heap := heap v; types := types v; structs := structs v; stack := st; has_union := false |}
        else match name with
             | Some n => match nget n (structs v) with
                         | Some _ => Ok {| heap := heap v; types := nset n r (types v); structs := ndel n (structs v); stack := st; has_union := false |}
                         | None => Err EKey
                         end
             | None => Err EKey
             end
      else Ok {| heap := heap v; types := types v; structs := structs v; stack := st; has_union := has_union v |}
  end.
(** generator.py:272-280 *)
Definition field (c : gcon) (fname : option string) (sname : option string) (many : bool) (v : visitor) : res visitor :=
  let t := match make_type c with Some t => t | None => match sname with Some n => n | None => "None"%string end end in
  put (ocamel fname) (EType (list_of many t)) v.

(** ** convert (generator.py:58-183) *)
Definition gname (c : gcon) : option string :=
  match c with
  | GStruct n _ | GSwitch n _ _ | GSelect n _ | GText n | GFocused n _ | GWrap n _ | GLeaf n _ => n
  | GRenamed _ _ | GIf _ | GMany _ | GSkip => None
  end.
Definition msg_params (m : option string) : string := (match m with Some m => m | None => "None" end ++ "Params")%string.
Definition starts_hidden (f : option string) : bool := match f with Some f => hidden f | None => false end.
Fixpoint convert (c : gcon) (fname sname : option string) (many : bool) (m : option string) (v : visitor) {struct c} : res visitor :=
  let name := match sname with Some n => n | None => match gname c with Some n => n | None => msg_params m end end in
  if starts_hidden fname then Ok v else
  let open (v : visitor) : res visitor :=
    if many then let* v := enter_struct fname name many v in enter_union None v else enter_union fname v in
  let close (v : visitor) : res visitor :=
    let* v := exit v in if many then exit v else Ok v in
  match c with
  | GStruct _ subs =>
      let* v := enter_struct fname name many v in
      let* v := (fix go (l : list gcon) (v : visitor) : res visitor :=
                   match l with [] => Ok v | x :: l' => let* v := convert x None None false m v in go l' v end) subs v in
      exit v
  | GSwitch _ cases default =>
      let* v := open v in
      let* v := (fix go (l : list (string * gcon)) (v : visitor) : res visitor :=
                   match l with [] => Ok v | (k, x) :: l' => let* v := convert x (Some k) None false m v in go l' v end) cases v in
      let* v := match default with Some (k, x) => convert x (Some k) (Some name) false m v | None => Ok v end in
      close v
  | GSelect _ subs =>
      let* v := open v in
      let* v := (fix go (l : list gcon) (v : visitor) : res visitor :=
                   match l with [] => Ok v | x :: l' => let* v := convert x None None false m v in go l' v end) subs v in
      close v
  | GRenamed f x => convert x (Some f) None many m v
  | GIf x => field x fname None false v
  | GText _ => field c fname (Some name) false v
  | GMany x => convert x fname None true m v
  | GFocused _ x => convert x fname (Some name) false None v
  | GSkip => Ok v
  | GWrap _ x => convert x fname (Some name) many m v
  | GLeaf _ _ => field c fname (Some name) many v
  end.

(** ** generate (generator.py:290-327) *)
Definition visitor0 : visitor :=
  {| heap := [[]]; types := []; structs := [("AccessMessage"%string, 0%nat)]; stack := [(Some "AccessMessage"%string, 0%nat)]; has_union := false |}.
(** AccessMessage.OPCODES in order: the variables that hold the opcode class and the message, and the message
    (generator.py:294-295) *)
Fixpoint convert_all (l : list (string * string * gcon)) (v : visitor) : res visitor :=
  match l with
  | [] => Ok v
  | ((o, m), c) :: l' => let* v := convert c (Some o) None false (Some m) v in convert_all l' v
  end.
Fixpoint update (new old : scope) : scope := match new with [] => old | (k, e) :: new' => update new' (sset k e old) end.
(** generator.py:299-302 *)
Fixpoint merge_all (l : list (string * string * gcon)) (u : nat) (v : visitor) : visitor :=
  match l with
  | [] => v
  | ((_, m), _) :: l' =>
      let found := match nget m (structs v) with Some r => Some r | None => nget m (types v) end in
      let v1 := {| heap := heap v; types := types v; structs := ndel m (structs v); stack := stack v; has_union := has_union v |} in
      merge_all l' u (match found with
                      | Some r => match sget None (hget r (heap v1)) with
                                  | Some (EUnion s) => {| heap := hset u (update (hget s (heap v1)) (hget u (heap v1))) (heap v1); types := types v1;
                                                          structs := structs v1; stack := stack v1; has_union := has_union v1 |}
                                  | _ => v1
                                  end
                      | None => v1
                      end)
  end.
(** generator.py:297-302 *)
Definition merged (l : list (string * string * gcon)) (v : visitor) : visitor :=
  let a := length (heap v) in
  let v1 := {| heap := heap v ++ [[(Some "opcode"%string, EType "UInt32"); (None, EUnion (S a))]; []]; types := types v;
               structs := nset "AccessMessage" a (structs v); stack := stack v; has_union := has_union v |} in
  merge_all l (S a) v1.

(** the text of the schema, as a tree; [describe] (generator.py:305-325) draws the numbers from one counter, which
    goes on through nested unions.  The heap has no cycles, so its size bounds the depth. *)
Inductive line :=
| LField (name : option string) (ord : nat) (type : string)
| LUnion (name : option string) (members : list line).
Fixpoint describe (fuel : nat) (h : list scope) (s : scope) (n : nat) {struct fuel} : option (list line * nat) :=
  match fuel with
  | O => None
  | S f =>
      (fix go (s : scope) (n : nat) : option (list line * nat) :=
         match s with
         | [] => Some ([], n)
         | (k, EType t) :: s' => match go s' (S n) with Some (l, n') => Some (LField k n t :: l, n') | None => None end
         | (k, EUnion r) :: s' =>
             match describe f h (hget r h) n with
             | Some (ms, n1) => match go s' n1 with Some (l, n2) => Some (LUnion k ms :: l, n2) | None => None end
             | None => None
             end
         end) s n
  end.
Definition struct_text (h : list scope) (r : nat) : option (list line) :=
  match describe (S (S (length h))) h (hget r h) 0 with Some (l, _) => Some l | None => None end.
Definition schema := list (string * option (list line)).
Definition generate (l : list (string * string * gcon)) : res schema :=
  let* v := convert_all l visitor0 in
  let v := merged l v in
  Ok (map (fun p => (fst p, struct_text (heap v) (snd p))) (types v ++ structs v)).

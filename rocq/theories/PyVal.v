(** * PyVal: the Python values, exceptions and dictionaries the library handles.

    Models: the Python objects that cross the public API of
    bluetooth_mesh.messages (arguments of [.build], results of [.parse]).
    Python is dynamically typed, so a single inductive type of values is used;
    streams are lists of integers (bytes 0..255, or single bits 0/1 inside
    construct's [Bitwise]).
    Simplifications (also recorded in DESIGN.md):
    - floats are exact rationals kept in lowest terms ([VFloat]); NaN and
      negative zero are not represented; [float("inf")] is [VInf];
    - IEEE wire floats (debugV2.py Float32l/Float64l) are kept as opaque bit
      patterns ([VIeee]);
    - a [set] is the list of its elements in iteration order ([VSet]). *)
From Coq Require Export ZArith String Ascii Bool Lia QArith List.
Export ListNotations.
Open Scope Z_scope.
Open Scope list_scope.

Inductive val : Type :=
| VNone
| VBool (b : bool)
| VInt (z : Z)
| VFloat (q : Q)
| VInf
| VIeee (width : nat) (bits : Z)
| VStr (s : list Z)                     (* code points *)
| VBytes (l : list Z)
| VList (l : list val)
| VSet (l : list val)
| VDict (d : list (string * val))
| VEnum (name : string) (z : Z)         (* member of an IntEnum *)
| VDateTime (utc_us : Z) (off_s : Z)    (* aware datetime: UTC microseconds since 1970-01-01, utc offset in seconds *)
| VTimedelta (us : Z)
| VDate (days : Z)                      (* datetime.date as days since 1970-01-01 *)
| VIPv4 (l : list Z).                   (* ipaddress.IPv4Address, 4 octets *)

Definition dict := list (string * val).

(** Exceptions.  Only [KeyError] is told apart by the code (it is caught in
    sensor.py:150,174, util.py:396,411); every other
    Python exception is [EOther]. *)
Inductive err : Type := EKey | EOther.

(** [Diverge] is a non-terminating run (construct's GreedyRange looping on a
    subconstruct that succeeds without consuming input). *)
Inductive res (A : Type) : Type :=
| Ok (a : A)
| Err (e : err)
| Diverge.
Arguments Ok {A} a.
Arguments Err {A} e.
Arguments Diverge {A}.

Definition bind {A B} (r : res A) (f : A -> res B) : res B :=
  match r with Ok a => f a | Err e => Err e | Diverge => Diverge end.
Notation "'let*' x ':=' r 'in' k" := (bind r (fun x => k))
  (at level 200, x pattern, r at level 100, k at level 200, right associativity).

Definition is_ok {A} (r : res A) : bool := match r with Ok _ => true | _ => false end.

(** ** Dictionaries (insertion ordered, as Python's dict and construct's Container) *)
Fixpoint dget (k : string) (d : dict) : option val :=
  match d with
  | [] => None
  | (k', v) :: d' => if String.eqb k k' then Some v else dget k d'
  end.

Fixpoint dset (k : string) (v : val) (d : dict) : dict :=
  match d with
  | [] => [(k, v)]
  | (k', v') :: d' => if String.eqb k k' then (k, v) :: d' else (k', v') :: dset k v d'
  end.

Fixpoint ddel (k : string) (d : dict) : dict :=
  match d with
  | [] => []
  | (k', v') :: d' => if String.eqb k k' then d' else (k', v') :: ddel k d'
  end.

Definition keys (d : dict) : list string := map fst d.

(** d[k] *)
Definition dgetr (k : string) (d : dict) : res val :=
  match dget k d with Some v => Ok v | None => Err EKey end.
(** d.get(k) *)
Definition dgetn (k : string) (d : dict) : val :=
  match dget k d with Some v => v | None => VNone end.

(** The integer a value stands for where Python accepts an int (bool and
    IntEnum are subclasses of int). *)
Definition as_int (v : val) : option Z :=
  match v with
  | VInt z => Some z
  | VBool b => Some (if b then 1 else 0)
  | VEnum _ z => Some z
  | _ => None
  end.

Definition as_intr (v : val) : res Z :=
  match as_int v with Some z => Ok z | None => Err EOther end.

Definition Qzero (q : Q) : bool := Z.eqb (Qnum q) 0.

(** Python truthiness. *)
Definition truthy (v : val) : bool :=
  match v with
  | VNone => false
  | VBool b => b
  | VInt z => negb (Z.eqb z 0)
  | VFloat q => negb (Qzero q)
  | VInf => true
  | VIeee _ b => negb (Z.eqb b 0)
  | VStr l | VBytes l => match l with [] => false | _ => true end
  | VList l | VSet l => match l with [] => false | _ => true end
  | VDict d => match d with [] => false | _ => true end
  | VEnum _ z => negb (Z.eqb z 0)
  | VTimedelta us => negb (Z.eqb us 0)
  | VDateTime _ _ | VDate _ | VIPv4 _ => true
  end.

(** ** Strings: identifiers are ASCII Coq strings, Python strings are code points *)
Fixpoint cps (s : string) : list Z :=
  match s with
  | EmptyString => []
  | String a s' => Z.of_nat (nat_of_ascii a) :: cps s'
  end.

Fixpoint zlist_eqb (a b : list Z) : bool :=
  match a, b with
  | [], [] => true
  | x :: a', y :: b' => Z.eqb x y && zlist_eqb a' b'
  | _, _ => false
  end.

Definition lower_ascii (a : ascii) : ascii :=
  let n := nat_of_ascii a in
  if andb (Nat.leb 65 n) (Nat.leb n 90) then ascii_of_nat (n + 32) else a.

(** str.lower on identifiers *)
Fixpoint lower (s : string) : string :=
  match s with
  | EmptyString => EmptyString
  | String a s' => String (lower_ascii a) (lower s')
  end.

(** name.startswith("_") *)
Definition hidden (k : string) : bool :=
  match k with
  | String a _ => Ascii.eqb a "_"%char
  | EmptyString => false
  end.

(** Iterating over a value ([for x in obj]); [None] = TypeError. *)
Definition iter (v : val) : option (list val) :=
  match v with
  | VList l | VSet l => Some l
  | VBytes l => Some (map VInt l)
  | VStr l => Some (map (fun c => VStr [c]) l)
  | VDict d => Some (map (fun kv => VStr (cps (fst kv))) d)
  | _ => None
  end.

(** ** The public view: what [==] on containers and [to_case_dict] look at -
    entries whose key starts with an underscore are ignored. *)
Fixpoint pub (v : val) : val :=
  match v with
  | VList l => VList (map pub l)
  | VDict d =>
      VDict ((fix go (d : dict) : dict :=
                match d with
                | [] => []
                | (k, x) :: d' => if hidden k then go d' else (k, pub x) :: go d'
                end) d)
  | _ => v
  end.

Fixpoint pubd (d : dict) : dict :=
  match d with
  | [] => []
  | (k, x) :: d' => if hidden k then pubd d' else (k, pub x) :: pubd d'
  end.

Lemma pub_dict d : pub (VDict d) = VDict (pubd d).
Proof. reflexivity. Qed.

(** ** Induction principle through the nested lists *)
Section val_ind'.
  Variable P : val -> Prop.
  Hypothesis Hnone : P VNone.
  Hypothesis Hbool : forall b, P (VBool b).
  Hypothesis Hint : forall z, P (VInt z).
  Hypothesis Hfloat : forall q, P (VFloat q).
  Hypothesis Hinf : P VInf.
  Hypothesis Hieee : forall w b, P (VIeee w b).
  Hypothesis Hstr : forall s, P (VStr s).
  Hypothesis Hbytes : forall l, P (VBytes l).
  Hypothesis Hlist : forall l, Forall P l -> P (VList l).
  Hypothesis Hset : forall l, Forall P l -> P (VSet l).
  Hypothesis Hdict : forall d, Forall (fun kv => P (snd kv)) d -> P (VDict d).
  Hypothesis Henum : forall n z, P (VEnum n z).
  Hypothesis Hdt : forall a b, P (VDateTime a b).
  Hypothesis Htd : forall a, P (VTimedelta a).
  Hypothesis Hdate : forall a, P (VDate a).
  Hypothesis Hip : forall l, P (VIPv4 l).
  Fixpoint val_ind' (v : val) : P v :=
    match v with
    | VNone => Hnone | VBool b => Hbool b | VInt z => Hint z | VFloat q => Hfloat q
    | VInf => Hinf | VIeee w b => Hieee w b | VStr s => Hstr s | VBytes l => Hbytes l
    | VList l => Hlist l ((fix go l : Forall P l :=
        match l with [] => Forall_nil _ | x :: l' => Forall_cons _ (val_ind' x) (go l') end) l)
    | VSet l => Hset l ((fix go l : Forall P l :=
        match l with [] => Forall_nil _ | x :: l' => Forall_cons _ (val_ind' x) (go l') end) l)
    | VDict d => Hdict d ((fix go d : Forall (fun kv => P (snd kv)) d :=
        match d with [] => Forall_nil _ | kv :: d' => Forall_cons _ (val_ind' (snd kv)) (go d') end) d)
    | VEnum n z => Henum n z | VDateTime a b => Hdt a b | VTimedelta a => Htd a
    | VDate a => Hdate a | VIPv4 l => Hip l
    end.
End val_ind'.

(** ** Dictionary lemmas *)
Lemma dget_dset_eq k v d : dget k (dset k v d) = Some v.
Proof.
  induction d as [|[k' v'] d IH]; simpl.
  - now rewrite String.eqb_refl.
  - destruct (String.eqb k k') eqn:E; simpl; [now rewrite String.eqb_refl | now rewrite E].
Qed.

Lemma dget_dset_neq k k' v d : k <> k' -> dget k (dset k' v d) = dget k d.
Proof.
  intros Hn; induction d as [|[k2 v2] d IH]; simpl.
  - destruct (String.eqb_spec k k'); congruence.
  - destruct (String.eqb_spec k' k2); simpl.
    + subst. destruct (String.eqb_spec k k2); congruence.
    + destruct (String.eqb k k2); [reflexivity | exact IH].
Qed.

Lemma dget_None_in k d : dget k d = None <-> ~ In k (keys d).
Proof.
  induction d as [|[k' v'] d IH]; simpl; [tauto|].
  destruct (String.eqb_spec k k'); subst.
  - split; [discriminate | intros H; exfalso; apply H; now left].
  - rewrite IH. intuition congruence.
Qed.

Lemma dset_fresh k v d : dget k d = None -> dset k v d = d ++ [(k, v)].
Proof.
  induction d as [|[k' v'] d IH]; simpl; [reflexivity|].
  destruct (String.eqb k k'); [discriminate | intros H; now rewrite IH].
Qed.

Lemma dget_app k d1 d2 :
  dget k (d1 ++ d2) = match dget k d1 with Some v => Some v | None => dget k d2 end.
Proof.
  induction d1 as [|[k' v'] d IH]; simpl; [reflexivity|].
  destruct (String.eqb k k'); [reflexivity | exact IH].
Qed.

Lemma dset_same k v d : dget k d = Some v -> dset k v d = d.
Proof.
  induction d as [|[k' v'] d IH]; simpl; [discriminate|].
  destruct (String.eqb_spec k k'); subst.
  - intros [= ->]. reflexivity.
  - intros H. now rewrite IH.
Qed.

Lemma pubd_app a b : pubd (a ++ b) = pubd a ++ pubd b.
Proof.
  induction a as [|[k x] a IH]; simpl; [reflexivity|].
  destruct (hidden k); simpl; now rewrite IH.
Qed.

Lemma dget_pubd k d : hidden k = false -> dget k (pubd d) = option_map pub (dget k d).
Proof.
  intros Hk; induction d as [|[k' x] d IH]; simpl; [reflexivity|].
  destruct (String.eqb_spec k k'); subst.
  - rewrite Hk. simpl. now rewrite String.eqb_refl.
  - destruct (hidden k') eqn:E; simpl.
    + exact IH.
    + destruct (String.eqb_spec k k'); [congruence | exact IH].
Qed.

Lemma pub_idem v : pub (pub v) = pub v.
Proof.
  induction v using val_ind'; simpl; try reflexivity.
  - f_equal. rewrite map_map. induction H as [|x l Hx Hl IH]; simpl; [reflexivity|]. now rewrite Hx, IH.
  - change (pub (pub (VDict d)) = pub (VDict d)). rewrite pub_dict, pub_dict. f_equal.
    induction H as [|[k x] d Hx Hd IH]; simpl; [reflexivity|].
    destruct (hidden k) eqn:E; [exact IH|]. simpl. rewrite E. simpl in Hx. now rewrite Hx, IH.
Qed.

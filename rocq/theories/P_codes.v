(** * P_codes: enumerated fields carry the documented codes (C56).

    The documented codes are the hand-written tables of Codes; which table stands where in a message is its [code_paths]. *)
From Verif Require Import PyVal Bits Adapters Construct Size Master Sound Shape Access AccessProofs AdapterProofs1 P_layout P_params P_fits Codes.
From Coq Require Import Lia.
Local Open Scope list_scope.
Local Open Scope Z_scope.

(** Below the keys [p] of [v] there is the member [n], of value [z], of an enumeration.  Lists are looked into; the keys that
    start with an underscore (copies construct keeps for itself) are not. *)
Inductive found : val -> list string -> string -> Z -> Prop :=
| found_here n z : found (VEnum n z) [] n z
| found_list l x p n z : In x l -> found x p n z -> found (VList l) p n z
| found_set l x p n z : In x l -> found x p n z -> found (VSet l) p n z
| found_key d k x p n z : In (k, x) d -> hidden k = false -> found x p n z -> found (VDict d) (k :: p) n z.

(** ** What can be found, from the shape *)
Definition paths := list (list string * codes).
Definition inside (k : string) (R : paths) : paths :=
  flat_map (fun r => match fst r with k' :: p => if String.eqb k k' then [(p, snd r)] else [] | [] => [] end) R.
Lemma inside_in k R p t : In (p, t) (inside k R) -> In (k :: p, t) R.
Proof.
  unfold inside. intros H. apply in_flat_map in H as ([q u] & Hr & H). cbn [fst snd] in H. destruct q as [|k' q]; [destruct H|].
  destruct (String.eqb_spec k k') as [->|]; [|destruct H]. destruct H as [[= -> ->] | []]. exact Hr.
Qed.
Fixpoint in_table_of (n : string) (z : Z) (t : codes) : bool :=
  match t with [] => false | (m, y) :: t' => if Z.eqb z y then if String.eqb n m then true else in_table_of n z t' else in_table_of n z t' end.
Lemma in_table_of_ok n z t : in_table_of n z t = true -> In (n, z) t.
Proof.
  induction t as [|[m y] t IH]; [discriminate|]. cbn [in_table_of]. destruct (Z.eqb_spec z y) as [->|]; [|right; now apply IH].
  destruct (String.eqb_spec n m) as [->|]; [now left | right; now apply IH].
Qed.
Fixpoint in_codes (R : paths) (n : string) (z : Z) : bool :=
  match R with [] => false | ([], t) :: R' => if in_table_of n z t then true else in_codes R' n z | _ :: R' => in_codes R' n z end.
Lemma in_codes_ok R n z : in_codes R n z = true -> exists t, In ([], t) R /\ In (n, z) t.
Proof.
  induction R as [|[q t] R IH]; [discriminate|]. cbn [in_codes]. destruct q as [|k q].
  - destruct (in_table_of n z t) eqn:E; [intros _; exists t; split; [now left | now apply in_table_of_ok]|]. intros H. destruct (IH H) as (t' & H1 & H2). exists t'. split; [now right | exact H2].
  - intros H. destruct (IH H) as (t' & H1 & H2). exists t'. split; [now right | exact H2].
Qed.
(** [o]: the key "opcode" is left out here *)
Fixpoint listed (o : bool) (R : paths) (s : shape) : bool :=
  match s with
  | SEnum t => forallb (fun m => in_codes R (fst m) (snd m)) t
  | SList _ s => listed false R s
  | SAlt l => (fix go (l : list shape) : bool := match l with [] => true | s :: l' => if listed o R s then go l' else false end) l
  | SRec _ fs => (fix go (fs : flds) : bool := match fs with
                | [] => true
                | (k, (_, s)) :: fs' => if (if o then String.eqb k "opcode" else false) then go fs' else if listed false (inside k R) s then go fs' else false
                end) fs
  | SAny => false
  | _ => true
  end.
Lemma by_value_in (t : enum) z n z' : by_value t z = Some (VEnum n z') -> In (n, z) t.
Proof. induction t as [|[m y] t IH]; [discriminate|]. cbn [by_value]. destruct (Z.eqb_spec z y) as [->|]; [intros [= -> _]; now left | intros H; right; now apply IH]. Qed.
Lemma listed_ok s : forall o R v p n z, listed o R s = true -> inh true s v -> found v p n z ->
  (o = true /\ exists p', p = "opcode"%string :: p') \/ exists t, In (p, t) R /\ In (n, z) t.
Proof.
  induction s as [s Hs|m s IH|nm fs IH|l IH] using shape_ind'; intros o R v p n z H Hi F.
  - destruct s; try (destruct Hs); try discriminate; inversion Hi; subst; inversion F; subst. right.
    cbn [listed] in H. rewrite forallb_forall in H. apply in_codes_ok. apply (H (n, z)). eapply by_value_in. eassumption.
  - cbn [listed] in H. inversion Hi as [| | | | | | | | | | | | | | | |m' s' l' G1 G2|m' s' l' Cx G1 G2| | |]; subst; inversion F; subst;
      (destruct (IH false R _ _ _ _ H (G1 _ ltac:(eassumption)) ltac:(eassumption)) as [[C _] | K]; [discriminate | now right]).
  - cbn [listed] in H. inversion Hi as [| | | | | | | | | | | | | | | | | |n' fs' d G1 G2 G3 G4| |]; subst. inversion F as [| | |d' k x p' n1 z1 Hin Hh Hf]; subst.
    destruct (G3 _ _ Hin) as [[_ C] | (s1 & Hs & Hx)]; [congruence|]. clear G1 G2 G3 G4 Hi F Hin.
    induction IH as [|[j [b s2]] fs Hj IHf IHr]; [discriminate|]. cbn [sget fst snd] in *.
    destruct (String.eqb_spec k j) as [->|Nk].
    + injection Hs as ->. destruct o.
      * destruct (String.eqb_spec j "opcode") as [->|]; [left; split; eauto|]. destruct (listed false (inside j R) s1) eqn:E; [|discriminate].
        destruct (Hj _ _ _ _ _ _ E Hx Hf) as [[C _] | (t & Ht & Hz)]; [discriminate|]. right. exists t. split; [now apply inside_in | exact Hz].
      * destruct (listed false (inside j R) s1) eqn:E; [|discriminate].
        destruct (Hj _ _ _ _ _ _ E Hx Hf) as [[C _] | (t & Ht & Hz)]; [discriminate|]. right. exists t. split; [now apply inside_in | exact Hz].
    + apply IHr; [|exact Hs]. destruct o; [destruct (String.eqb j "opcode"); [exact H|]|]; (destruct (listed false (inside j R) s2); [exact H | discriminate]).
  - cbn [listed] in H. inversion Hi as [| | | | | | | | | | | | | | | | | | |l' s1 v' Hin Hx|]; subst. clear Hi.
    induction IH as [|s2 l Hj IHf IHr]; [destruct Hin|]. destruct (listed o R s2) eqn:E; [|discriminate]. destruct Hin as [-> | Hin]; [eapply Hj; eassumption | now apply IHr].
Qed.
Lemma all_listed : forallb (listed true code_paths) (unknown_shape :: map (fun p => sh [] (snd p)) access_table) = true.
Proof. vm_cast_no_check (eq_refl true). Qed.

(** Wherever a decoded message holds a member of an enumeration, it is a documented code of that place, by its documented
    name (the opcode itself: C03, C04). *)
Theorem C56_received : forall s v k p n z, bytes s -> access_parse s = Ok v -> found v (k :: p) n z ->
  k = "opcode"%string \/ exists t, In (k :: p, t) code_paths /\ In (n, z) t.
Proof.
  intros s v k p n z B E F. pose proof all_listed as L. generalize dependent code_paths. intros R L. rewrite forallb_forall in L.
  assert (K : forall sh, listed true R sh = true -> inh true sh v -> k = "opcode"%string \/ exists t, In (k :: p, t) R /\ In (n, z) t).
  { intros sh Hl Hi. destruct (listed_ok _ _ _ _ _ _ _ Hl Hi F) as [(_ & p' & [= -> _]) | K]; [now left | now right]. }
  destruct (access_inh s v B E) as [H | (t & c & Hf & H)].
  - exact (K _ (L _ (or_introl eq_refl)) H).
  - exact (K _ (L _ (or_intror (in_table _ _ _ Hf))) H).
Qed.

(** ** Every documented code is received *)
Fixpoint fcode (v : val) (p : list string) (n : string) (z : Z) {struct p} : bool :=
  let one v := match p with
    | [] => match v with VEnum m y => (String.eqb m n && Z.eqb y z)%bool | _ => false end
    | k :: p' => match v with VDict d => match dget k d with Some x => if hidden k then false else fcode x p' n z | None => false end | _ => false end
    end in
  match v with VList l | VSet l => existsb one l | _ => one v end.
Lemma fcode_ok p : forall v n z, fcode v p n z = true -> found v p n z.
Proof.
  induction p as [|k p IH]; intros v n z H; cbn [fcode] in H.
  - assert (One : forall v, match v with VEnum m y => (String.eqb m n && Z.eqb y z)%bool | _ => false end = true -> found v [] n z).
    { intros v0 H0. destruct v0; try discriminate. apply andb_true_iff in H0 as [H1 H2]. apply String.eqb_eq in H1 as ->. apply Z.eqb_eq in H2 as ->. constructor. }
    destruct v; try (now apply One); apply existsb_exists in H as (x & Hx & H); [eapply found_list | eapply found_set]; eauto.
  - assert (One : forall v, match v with VDict d => match dget k d with Some x => if hidden k then false else fcode x p n z | None => false end | _ => false end = true -> found v (k :: p) n z).
    { intros v0 H0. destruct v0 as [| | | | | | | | | |d| | | | |]; try discriminate. destruct (dget k d) as [x|] eqn:Ed; [|discriminate]. destruct (hidden k) eqn:Eh; [discriminate|].
      eapply found_key; [apply dget_In; exact Ed | exact Eh | apply IH; exact H0]. }
    destruct v; try (now apply One); apply existsb_exists in H as (x & Hx & H); [eapply found_list | eapply found_set]; eauto.
Qed.
Definition opcode_for (k : string) : list Z :=
  match find (fun r => match r with (n, z, c) => String.eqb (lower n) k end) params with
  | Some (_, z, _) => if z <? 128 then [z] else if z <? 65536 then [z / 256; z mod 256] else [z / 65536; z / 256 mod 256; z mod 256]
  | None => []
  end.
(** [before], the code in so many bytes shifted left by so many bits, [after] *)
Definition sample := (list Z * nat * Z * list Z)%type.
Definition sample_bytes (op : list Z) (z : Z) (q : sample) : list Z := let '(before, w, sh, after) := q in op ++ before ++ to_le w (z * 2 ^ sh) ++ after.
Definition shows (op : list Z) (p : list string) (m : string * Z) (q : sample) : bool :=
  let s := sample_bytes op (snd m) q in if bytesb s then match access_parse s with Ok v => fcode v p (fst m) (snd m) | _ => false end else false.
Fixpoint some_shows (op : list Z) (p : list string) (m : string * Z) (l : list sample) : bool :=
  match l with [] => false | q :: l' => if shows op p m q then true else some_shows op p m l' end.
Definition shows_all (r : (list string * codes) * list sample) : bool :=
  let op := opcode_for (hd EmptyString (fst (fst r))) in forallb (fun m => some_shows op (fst (fst r)) m (snd r)) (snd (fst r)).
Local Definition samples : list (list sample) :=
  [[([], 1%nat, 0, repeat 0 20)];
   [([], 1%nat, 0, repeat 0 20)];
   [([], 1%nat, 0, repeat 0 20)];
   [([], 1%nat, 0, repeat 0 20)];
   [([], 1%nat, 0, repeat 0 20)];
   [([], 1%nat, 0, repeat 0 20)];
   [(repeat 0 11, 2%nat, 0, repeat 0 20)];
   [([1; 1; 0], 1%nat, 1, repeat 0 20)];
   [([1; 0; 1], 1%nat, 1, repeat 0 20)];
   [([], 1%nat, 0, repeat 0 20)];
   [([], 1%nat, 0, repeat 0 20)];
   [([], 1%nat, 0, repeat 0 20)];
   [([], 1%nat, 0, repeat 0 20)];
   [([], 1%nat, 0, repeat 0 20)];
   [([], 1%nat, 0, repeat 0 20)];
   [([0; 0], 1%nat, 0, repeat 0 20)];
   [([], 1%nat, 0, repeat 0 20)];
   [([0; 0; 0], 1%nat, 0, repeat 0 20)];
   [([], 1%nat, 0, repeat 1 20)];
   [(repeat 1 5, 1%nat, 4, repeat 1 20)];
   [(repeat 1 7, 1%nat, 6, repeat 1 20)];
   [([], 1%nat, 0, repeat 1 20)];
   [(repeat 1 6, 1%nat, 4, repeat 1 20)];
   [(repeat 1 8, 1%nat, 6, repeat 1 20)];
   [(repeat 1 19, 1%nat, 4, repeat 1 20)];
   [(repeat 1 21, 1%nat, 6, repeat 1 20)];
   [([], 1%nat, 0, [1; 1; 1; 192; 1; 1])];
   [([], 1%nat, 0, repeat 0 20)];
   [([0; 0], 1%nat, 0, repeat 0 20)];
   [([], 1%nat, 0, repeat 0 20)];
   [([0; 0; 0], 1%nat, 0, repeat 0 20)];
   [([], 1%nat, 0, repeat 0 20)];
   [([], 1%nat, 0, repeat 0 20)];
   [([], 1%nat, 0, repeat 1 20)];
   [([], 1%nat, 0, repeat 1 20)];
   [([], 1%nat, 0, repeat 1 20)];
   [([], 1%nat, 0, repeat 1 20)];
   [([], 1%nat, 0, repeat 0 60)];
   [([], 1%nat, 0, repeat 0 60)];
   [([12] ++ repeat 0 27, 1%nat, 0, repeat 0 100)];
   [([12] ++ repeat 0 28, 1%nat, 0, repeat 0 100)];
   [([13; 0; 0; 0; 0; 0; 0], 1%nat, 5, repeat 0 20)];
   [([13; 0; 0; 0; 0; 0; 0], 1%nat, 4, repeat 0 20)];
   [([13; 0; 0; 0; 0; 0; 0], 1%nat, 0, repeat 0 20)];
   [(repeat 0 7, 1%nat, 6, repeat 0 20)];
   [(repeat 0 7, 1%nat, 4, repeat 0 20)];
   [(repeat 0 7, 1%nat, 2, repeat 0 20)];
   [(repeat 0 7, 1%nat, 0, repeat 0 20)];
   [([], 1%nat, 0, repeat 0 20)];
   [([], 1%nat, 0, repeat 0 20)];
   [([], 1%nat, 0, repeat 0 60)];
   [([], 1%nat, 0, repeat 0 60)];
   [([], 1%nat, 0, repeat 0 20)];
   [([], 1%nat, 0, repeat 0 20)];
   [([], 1%nat, 0, repeat 0 20)];
   [([], 1%nat, 0, repeat 0 20)];
   [([], 1%nat, 0, repeat 0 20)];
   [([255], 2%nat, 0, repeat 0 140)];
   [([1; 140; 0], 1%nat, 0, [0; 0; 0; 0])];
   [([1; 179; 0], 1%nat, 0, [0; 0; 0; 0])];
   [([], 1%nat, 0, repeat 0 20)];
   [([], 1%nat, 0, repeat 0 20)];
   [([], 1%nat, 0, repeat 0 20)];
   [([0; 0], 1%nat, 0, repeat 0 20)];
   [([], 1%nat, 0, repeat 0 20)];
   [([0; 0], 1%nat, 0, repeat 0 20)];
   [([], 1%nat, 0, repeat 0 20)];
   [([7; 0], 2%nat, 0, repeat 0 140)];
   [([7; 0; 140; 0], 1%nat, 0, [0; 0; 0; 0])];
   [([7; 0; 179; 0], 1%nat, 0, [0; 0; 0; 0])];
   [([], 1%nat, 0, repeat 0 20)];
   [([7; 0], 2%nat, 0, repeat 0 140)];
   [([7; 0; 140; 0], 1%nat, 0, [0; 0; 0; 0])];
   [([7; 0; 179; 0], 1%nat, 0, [0; 0; 0; 0])];
   [([], 1%nat, 0, repeat 0 20)];
   [([7; 0], 2%nat, 0, repeat 0 140)];
   [([7; 0; 140; 0; 1], 1%nat, 0, [0; 0; 0; 0])];
   [([7; 0; 179; 0; 1], 1%nat, 0, [0; 0; 0; 0])];
   [([], 1%nat, 0, []); ([], 1%nat, 0, repeat 0 60); ([], 1%nat, 0, [113; 255] ++ repeat 0 20)];
   [([0], 2%nat, 0, repeat 0 20)];
   [([1], 2%nat, 0, repeat 0 20)];
   [([2], 2%nat, 0, repeat 0 20)];
   [([3], 2%nat, 0, repeat 0 20)];
   [([], 1%nat, 0, repeat 0 20)];
   [([], 1%nat, 0, repeat 0 20)];
   [([], 1%nat, 0, repeat 0 60)];
   [([0; 0; 0], 1%nat, 0, repeat 0 20)];
   [([], 1%nat, 0, repeat 0 60)];
   [([1], 1%nat, 0, repeat 0 20)];
   [([5], 1%nat, 0, repeat 0 20)];
   [([8; 0; 0], 1%nat, 0, repeat 0 20)];
   [([8; 0; 0; 0], 1%nat, 0, repeat 0 20); ([8; 0; 0; 7; 1], 1%nat, 0, repeat 0 20)];
   [([11; 0], 1%nat, 0, repeat 0 20)];
   [([], 1%nat, 0, repeat 0 20)];
   [([], 1%nat, 0, repeat 0 20)];
   [([], 2%nat, 0, repeat 0 140)];
   [([140; 0], 1%nat, 0, [0; 0; 0; 0])];
   [([179; 0], 1%nat, 0, [0; 0; 0; 0])];
   [([], 2%nat, 0, repeat 0 140)];
   [([140; 0], 1%nat, 0, [0; 0; 0; 0])];
   [([179; 0], 1%nat, 0, [0; 0; 0; 0])];
   [([], 2%nat, 0, repeat 0 140)];
   [([140; 0; 0], 1%nat, 0, [0; 0; 0; 0])];
   [([179; 0; 0], 1%nat, 0, [0; 0; 0; 0])];
   [([], 1%nat, 0, repeat 0 20)];
   [([], 1%nat, 0, repeat 0 20)];
   [([], 2%nat, 0, repeat 0 140)];
   [([140; 0; 0], 1%nat, 0, [0; 0; 0; 0])];
   [([179; 0; 0], 1%nat, 0, [0; 0; 0; 0])];
   [([], 2%nat, 0, repeat 0 140)];
   [([140; 0; 0], 1%nat, 0, [0; 0; 0; 0])];
   [([179; 0; 0], 1%nat, 0, [0; 0; 0; 0])];
   [([], 2%nat, 0, repeat 0 140)];
   [([140; 0; 0], 1%nat, 0, [0; 0; 0; 0])];
   [([179; 0; 0], 1%nat, 0, [0; 0; 0; 0])];
   [([], 1%nat, 0, repeat 0 20)];
   [([], 1%nat, 0, repeat 0 20)];
   [([], 1%nat, 0, repeat 0 20)];
   [([12; 0], 1%nat, 0, repeat 0 60)];
   [([], 1%nat, 0, repeat 0 20)];
   [([12; 0], 1%nat, 0, repeat 0 60)];
   [([], 2%nat, 0, repeat 0 140)];
   [([140; 0; 0], 1%nat, 0, [0; 0; 0; 0])];
   [([179; 0; 0], 1%nat, 0, [0; 0; 0; 0])];
   [([], 1%nat, 0, repeat 0 20)];
   [([], 1%nat, 0, []); ([], 1%nat, 0, repeat 0 60); ([], 1%nat, 0, [128; 255] ++ repeat 0 20)];
   [([5], 1%nat, 0, repeat 0 20)];
   [([6], 2%nat, 0, repeat 0 20)];
   [([7], 2%nat, 0, repeat 0 20)];
   [([8], 2%nat, 0, repeat 0 20)];
   [([9], 2%nat, 0, repeat 0 20)];
   [([], 1%nat, 0, []); ([], 1%nat, 0, repeat 0 60); ([], 1%nat, 0, [132; 255] ++ repeat 0 20)];
   [([3] ++ repeat 0 8, 1%nat, 0, repeat 0 20)];
   [([7] ++ repeat 0 8, 1%nat, 0, repeat 0 20)];
   [([8], 2%nat, 0, repeat 0 20)];
   [([9], 2%nat, 0, repeat 0 20)];
   [([10], 2%nat, 0, repeat 0 20)];
   [([11], 2%nat, 0, repeat 0 20)]].
Lemma all_shown : forallb shows_all (combine code_paths samples) = true.
Proof. vm_cast_no_check (eq_refl true). Qed.
Lemma as_many : length code_paths = length samples.
Proof. vm_compute. reflexivity. Qed.
Lemma in_combine_left {A B} (x : A) : forall (l : list A) (l' : list B), length l = length l' -> In x l -> exists y, In (x, y) (combine l l').
Proof.
  induction l as [|a l IH]; intros [|b l'] E H; try discriminate; [destruct H|]. destruct H as [-> | H]; [exists b; now left|].
  injection E as E. destruct (IH l' E H) as [y Hy]. exists y. now right.
Qed.
Lemma some_shows_ok op p n z l : some_shows op p (n, z) l = true -> exists s v, bytes s /\ access_parse s = Ok v /\ found v p n z.
Proof.
  induction l as [|q l IH]; [discriminate|]. cbn [some_shows]. destruct (shows op p (n, z) q) eqn:E; [|exact IH]. intros _.
  unfold shows in E. cbn [fst snd] in E. destruct (bytesb _) eqn:Eb in E; [|discriminate]. destruct (access_parse _) as [v| |] eqn:Ep in E; try discriminate.
  exists (sample_bytes op z q), v. split; [now apply bytesb_ok|]. split; [exact Ep | now apply fcode_ok].
Qed.
(** For every place and every code documented for it there is a byte string that decodes to a message with that code there. *)
Theorem C56_reached : forall p t n z, In (p, t) code_paths -> In (n, z) t -> exists s v, bytes s /\ access_parse s = Ok v /\ found v p n z.
Proof.
  pose proof all_shown as A. pose proof as_many as L. intros p t n z Hp Hn. generalize dependent code_paths. generalize dependent samples. intros ss R A L Hp.
  destruct (in_combine_left _ _ _ L Hp) as [q Hq]. apply (proj1 (forallb_forall _ _) A) in Hq. unfold shows_all in Hq. cbn [fst snd] in Hq.
  apply (proj1 (forallb_forall _ _) Hq) in Hn. eapply some_shows_ok. exact Hn.
Qed.

(** The tables are not empty claims: a battery status. *)
Example C56_ex : exists v, access_parse [0x82; 0x24; 50; 1; 0; 0; 2; 0; 0; 0xE7] = Ok v /\ found v ["generic_battery_status"; "flags"; "battery_serviceability_flags"]%string "BATTERY_SERVICEABILITY_UNKNOWN" 3.
Proof. eexists. split; [vm_compute; reflexivity|]. apply fcode_ok. vm_compute. reflexivity. Qed.

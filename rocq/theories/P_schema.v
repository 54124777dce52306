(** * P_schema: the schema generated from the library's own messages (C53).

    P_capnp proves what holds of the generator whatever the declarations are, and shows what does not.  Here the
    generator is run on the declarations of the library (G_capnp), and the schema it writes is checked against the
    rules of the Cap'n Proto language. *)
From Verif Require Import PyVal Names Capnp G_capnp P_capnp.
From Coq Require Import Lia.
Local Open Scope list_scope.
Local Open Scope nat_scope.

(** *** Specification: the rules of the schema language *)
Definition builtin : list string :=
  ["Bool"; "Int8"; "Int16"; "Int32"; "Int64"; "UInt8"; "UInt16"; "UInt32"; "UInt64"; "Float32"; "Float64"; "Text"; "Data"]%string.
(** a builtin type, a struct of the schema, or a list of a type *)
Inductive known_type (structs : list string) : string -> Prop :=
| known_builtin t : In t builtin -> known_type structs t
| known_struct t : In t structs -> known_type structs t
| known_list t : known_type structs t -> known_type structs ("List(" ++ t ++ ")")%string.
(** identifiers: a lower (upper) case letter, then letters and digits *)
Definition alnum (a : ascii) : bool := is_letter a || is_dig a.
Definition identifier (first : ascii -> bool) (s : string) : Prop :=
  exists a l, s = String a l /\ first a = true /\ Forall (fun b => alnum b = true) (chars_of l).
(** a struct, or a union with a name, is a scope; the members of a union without a name belong to the scope around it *)
Inductive good_member (structs : list string) : line -> Prop :=
| good_field k n t : identifier is_low k -> known_type structs t -> good_member structs (LField (Some k) n t)
| good_union k ms : identifier is_low k -> 2 <= length ms -> good_scope structs ms -> good_member structs (LUnion (Some k) ms)
| good_unnamed ms : 2 <= length ms -> (forall m, In m ms -> good_member structs m) -> good_member structs (LUnion None ms)
with good_scope (structs : list string) : list line -> Prop :=
| scope_of ms : NoDup (flat_map scope_names ms) -> (forall m, In m ms -> good_member structs m) -> good_scope structs ms.
(** at most one union without a name in a struct *)
Definition unnamed (l : line) : bool := match l with LUnion None _ => true | _ => false end.
Record valid_schema (sch : schema) : Prop := {
  valid_structs : NoDup (map fst sch);
  valid_names : forall n t, In (n, t) sch -> identifier is_up n /\ ~ In n builtin;
  valid_scopes : forall n t, In (n, t) sch -> exists ls, t = Some ls /\ good_scope (map fst sch) ls /\ ordinals ls = seq 0 (length (ordinals ls)) /\
    length (filter unnamed ls) <= 1 }.

(** *** Checking *)
Definition inb (s : string) (l : list string) : bool := existsb (String.eqb s) l.
Lemma inb_in s l : inb s l = true -> In s l.
Proof. unfold inb. intros H. apply existsb_exists in H as (x & Hx & E). apply String.eqb_eq in E as ->. exact Hx. Qed.
Lemma inb_not s l : inb s l = false -> ~ In s l.
Proof. intros H Hin. assert (inb s l = true) by (apply existsb_exists; exists s; split; [exact Hin | apply String.eqb_refl]). congruence. Qed.
Fixpoint uniq (l : list (option string)) : bool :=
  match l with [] => true | x :: l' => negb (existsb (okey_eqb x) l') && uniq l' end.
Lemma uniq_nodup l : uniq l = true -> NoDup l.
Proof.
  induction l as [|x l IH]; cbn [uniq]; [constructor|]. intros H. apply andb_true_iff in H as [H1 H2]. constructor; [|auto].
  intros Hin. apply negb_true_iff in H1. assert (existsb (okey_eqb x) l = true) by (apply existsb_exists; exists x; split; [exact Hin | now apply okey_eq]). congruence.
Qed.
Fixpoint uniqs (l : list string) : bool := match l with [] => true | x :: l' => negb (inb x l') && uniqs l' end.
Lemma uniqs_nodup l : uniqs l = true -> NoDup l.
Proof.
  induction l as [|x l IH]; cbn [uniqs]; [constructor|]. intros H. apply andb_true_iff in H as [H1 H2]. constructor; [|auto].
  apply inb_not. now apply negb_true_iff.
Qed.
Definition ident_b (first : ascii -> bool) (s : string) : bool := match s with String a l => first a && forallb alnum (chars_of l) | EmptyString => false end.
Lemma ident_ok first s : ident_b first s = true -> identifier first s.
Proof.
  destruct s as [|a l]; cbn [ident_b]; [discriminate|]. intros H. apply andb_true_iff in H as [H1 H2]. exists a, l. repeat split; [exact H1|].
  apply Forall_forall. now apply forallb_forall.
Qed.
(** the type under "List(" ... ")" *)
Definition unlist (t : string) : option string :=
  if String.eqb (substring 0 5 t) "List(" then Some (substring 5 (String.length t - 6) t) else None.
Fixpoint type_b (fuel : nat) (structs : list string) (t : string) : bool :=
  inb t builtin || inb t structs ||
  match fuel with
  | O => false
  | S f => match unlist t with Some u => String.eqb t ("List(" ++ u ++ ")") && type_b f structs u | None => false end
  end.
Lemma type_ok fuel structs t : type_b fuel structs t = true -> known_type structs t.
Proof.
  revert t. induction fuel as [|f IH]; intros t; cbn [type_b]; intros H; apply orb_true_iff in H as [H | H].
  - apply orb_true_iff in H as [H | H]; apply inb_in in H; [now apply known_builtin | now apply known_struct].
  - discriminate.
  - apply orb_true_iff in H as [H | H]; apply inb_in in H; [now apply known_builtin | now apply known_struct].
  - destruct (unlist t) as [u|]; [|discriminate]. apply andb_true_iff in H as [H1 H2]. apply String.eqb_eq in H1. rewrite H1. apply known_list. auto.
Qed.
Fixpoint member_b (structs : list string) (l : line) : bool :=
  match l with
  | LField (Some k) _ t => ident_b is_low k && type_b 3 structs t
  | LField None _ _ => false
  | LUnion k ms =>
      Nat.leb 2 (length ms) && forallb (member_b structs) ms &&
      match k with Some k => ident_b is_low k && uniq (flat_map scope_names ms) | None => true end
  end.
Definition scope_b (structs : list string) (ms : list line) : bool := forallb (member_b structs) ms && uniq (flat_map scope_names ms).
Section line_ind'.
  Variable P : line -> Prop.
  Hypothesis Hf : forall k n t, P (LField k n t).
  Hypothesis Hu : forall k ms, Forall P ms -> P (LUnion k ms).
  Fixpoint line_ind' (l : line) : P l :=
    match l with
    | LField k n t => Hf k n t
    | LUnion k ms => Hu k ms ((fix go ms : Forall P ms := match ms with [] => Forall_nil _ | x :: ms' => Forall_cons _ (line_ind' x) (go ms') end) ms)
    end.
End line_ind'.
Lemma member_ok structs l : member_b structs l = true -> good_member structs l.
Proof.
  induction l as [k n t|k ms IH] using line_ind'; cbn [member_b].
  - destruct k as [k|]; [|discriminate]. intros H. apply andb_true_iff in H as [H1 H2]. constructor; [now apply ident_ok | eapply type_ok, H2].
  - intros H. apply andb_true_iff in H as [H H3]. apply andb_true_iff in H as [H1 H2]. apply Nat.leb_le in H1.
    assert (G : forall m, In m ms -> good_member structs m).
    { intros m Hm. rewrite Forall_forall in IH. apply IH; [exact Hm|]. rewrite forallb_forall in H2. auto. }
    destruct k as [k|]; [|now constructor]. apply andb_true_iff in H3 as [H3 H4]. constructor; [now apply ident_ok | exact H1|]. constructor; [now apply uniq_nodup | exact G].
Qed.
Lemma scope_ok structs ms : scope_b structs ms = true -> good_scope structs ms.
Proof.
  unfold scope_b. intros H. apply andb_true_iff in H as [H1 H2]. constructor; [now apply uniq_nodup|]. intros m Hm. apply member_ok. rewrite forallb_forall in H1. auto.
Qed.
Definition schema_b (sch : schema) : bool :=
  let structs := map fst sch in
  uniqs structs && forallb (fun p => ident_b is_up (fst p) && negb (inb (fst p) builtin) &&
                              match snd p with Some ls => scope_b structs ls && Nat.leb (length (filter unnamed ls)) 1 | None => false end) sch.

Lemma schema_valid msgs sch : generate msgs = Ok sch -> schema_b sch = true -> valid_schema sch.
Proof.
  intros E H. unfold schema_b in H. apply andb_true_iff in H as [H1 H2]. rewrite forallb_forall in H2.
  constructor.
  - now apply uniqs_nodup.
  - intros n t Hin. specialize (H2 _ Hin). cbn [fst snd] in H2. apply andb_true_iff in H2 as [H2 _]. apply andb_true_iff in H2 as [H2 H3].
    split; [now apply ident_ok | apply inb_not; now apply negb_true_iff].
  - intros n t Hin. pose proof (H2 _ Hin) as H. cbn [fst snd] in H. apply andb_true_iff in H as [_ H]. destruct t as [ls|]; [|discriminate]. apply andb_true_iff in H as [H3 H4].
    exists ls. split; [reflexivity|]. split; [now apply scope_ok|]. split; [eapply C53_ordinals; [exact E | exact Hin] | now apply Nat.leb_le].
Qed.

(** *** The schema of the library *)
Definition library_schema : schema := Eval vm_compute in match generate access_messages with Ok s => s | _ => [] end.
Lemma library_ok : generate access_messages = Ok library_schema.
Proof. vm_cast_no_check (eq_refl (@Ok schema library_schema)). Qed.
Lemma library_checked : schema_b library_schema = true.
Proof. vm_cast_no_check (eq_refl true). Qed.
Theorem C53_library_schema : exists sch, generate access_messages = Ok sch /\ valid_schema sch.
Proof. exists library_schema. split; [exact library_ok | exact (schema_valid _ _ library_ok library_checked)]. Qed.

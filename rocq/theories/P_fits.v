(** * P_fits: decoded messages fit the generated schema (C54).

    tests/test_capnproto.py passes decoded messages, converted to camel case, to the struct AccessMessage of the schema
    that capnproto/generator.py writes.  Which messages that works for is decided here for every byte string. *)
From Verif Require Import PyVal Bits Float64 FloatX Adapters Construct Size Master Sound Vocab Access Spec AccessProofs Local P_field Names P_names Capnp G_capnp P_capnp P_schema Shape T_capnp.
From Coq Require Import Lia Qround.
Local Open Scope list_scope.
Local Open Scope Z_scope.

(** *** Specification: the values a field of the schema takes *)
Definition int_types : list (string * (Z * Z)) :=
  [("Int8", (-128, 127)); ("Int16", (-32768, 32767)); ("Int32", (-2147483648, 2147483647)); ("Int64", (-9223372036854775808, 9223372036854775807));
   ("UInt8", (0, 255)); ("UInt16", (0, 65535)); ("UInt32", (0, 4294967295)); ("UInt64", (0, 18446744073709551615))]%string.
Definition float_types : list string := ["Float32"; "Float64"]%string.
Definition text_types : list string := ["Text"; "Data"]%string.
(** the type of a member: a type of the schema language, or a union *)
Inductive target := TT (t : string) | TU (ms : list line).
(** [k] is a member of a scope; the members of a union without a name belong to the scope around it *)
Inductive member_of : list line -> string -> target -> Prop :=
| member_field ls k n t : In (LField (Some k) n t) ls -> member_of ls k (TT t)
| member_union ls k ms : In (LUnion (Some k) ms) ls -> member_of ls k (TU ms)
| member_inner ls ms k tg : In (LUnion None ms) ls -> member_of ms k tg -> member_of ls k tg.
Definition number (v : val) : Prop := match v with VInt _ | VFloat _ | VInf | VIeee _ _ => True | _ => False end.
(** A field takes a value: bools and ints are not mixed; an int, or a float equal to one, must be in range; a float
    field takes any number; Text and Data take str; a struct takes a dict that sets each of its members, and one of
    each union, and nothing else; a union takes a dict with one entry. *)
Inductive fits (sch : schema) : target -> val -> Prop :=
| fits_bool b : fits sch (TT "Bool") (VBool b)
| fits_int t lo hi z : In (t, (lo, hi)) int_types -> lo <= z <= hi -> fits sch (TT t) (VInt z)
| fits_whole t lo hi z q : In (t, (lo, hi)) int_types -> lo <= z <= hi -> (q == inject_Z z)%Q -> fits sch (TT t) (VFloat q)
| fits_float t v : In t float_types -> number v -> fits sch (TT t) v
| fits_text t s : In t text_types -> fits sch (TT t) (VStr s)
| fits_list t l : (forall x, In x l -> fits sch (TT t) x) -> fits sch (TT ("List(" ++ t ++ ")")) (VList l)
| fits_struct t ls d : In (t, Some ls) sch -> NoDup (keys d) ->
    (forall k x, In (k, x) d -> exists tg, member_of ls k tg /\ fits sch tg x) ->
    (forall k n t, In (LField (Some k) n t) ls -> In k (keys d)) ->
    (forall k ms, In (LUnion (Some k) ms) ls -> In k (keys d)) ->
    (forall ms, In (LUnion None ms) ls -> exists k, In k (keys d) /\ (exists tg, member_of ms k tg) /\ forall j tg, member_of ms j tg -> In j (keys d) -> j = k) ->
    fits sch (TT t) (VDict d)
| fits_union ms k tg x : member_of ms k tg -> fits sch tg x -> fits sch (TU ms) (VDict [(k, x)]).

(** *** Shapes of converted values *)
Definition date_rec : flds := [("year", (true, SInt 1 9999)); ("month", (true, SInt 1 12)); ("day", (true, SInt 1 31))]%string.
Definition dt_rec : flds := date_rec ++
  [("hour", (true, SInt 0 23)); ("minute", (true, SInt 0 59));
   ("second", (true, SInt 0 59)); ("microsecond", (true, SInt 0 999999)); ("timeZoneOffset", (true, SFlt (-1440) 1440))]%string.
Fixpoint cased (s : shape) : shape :=
  match s with
  | SEnum t => SInt (imin (map snd t)) (imax (map snd t))
  | SBytes => SStr
  | SSecs lo hi => if (- 2 ^ 53 <=? lo) && (hi <=? 2 ^ 53) then SFlt lo hi else SAny
  | STd => SNum
  | SDate => SRec None date_rec
  | SDateTime => SRec None dt_rec
  | SList m s => SList m (cased s)
  | SRec n fs =>
      if forallb (fun p => negb (hidden (fst p))) fs && uniqs (map (fun p => camelcase (fst p)) fs) then
        let fs' := (fix go (fs : flds) : flds := match fs with [] => [] | (k, (b, s)) :: fs' => (camelcase k, (b, cased s)) :: go fs' end) fs in
        match n with
        | Some EmptyString => SAny
        | Some n => if hidden n then SAny else SRec None [(n, (true, SRec None fs'))]
        | None => SRec None fs'
        end
      else SAny
  | SAlt l => SAlt (map cased l)
  | _ => s
  end.
Definition cased_flds (fs : flds) : flds := map (fun p => (camelcase (fst p), (fst (snd p), cased (snd (snd p))))) fs.
Lemma cased_flds_eq fs : (fix go (fs : flds) : flds := match fs with [] => [] | (k, (b, s)) :: fs' => (camelcase k, (b, cased s)) :: go fs' end) fs = cased_flds fs.
Proof. induction fs as [|[k [b s]] fs IH]; [reflexivity|]. unfold cased_flds. rewrite map_cons. cbn [fst snd]. f_equal. exact IH. Qed.
Lemma sget_cased fs k s : NoDup (map (fun p => camelcase (fst p)) fs) -> sget k fs = Some s -> sget (camelcase k) (cased_flds fs) = Some (cased s).
Proof.
  induction fs as [|[j [b x]] fs IH]; [discriminate|]. unfold cased_flds. rewrite !map_cons. cbn [fst snd sget]. fold (cased_flds fs). intros N E. inversion_clear N as [|? ? N1 N2].
  destruct (String.eqb_spec k j) as [->|Hn].
  - injection E as ->. now rewrite String.eqb_refl.
  - destruct (String.eqb_spec (camelcase k) (camelcase j)) as [C|_]; [|auto]. destruct N1. rewrite <- C. apply sget_In in E as [b' Hin]. apply in_map_iff. now exists (k, (b', s)).
Qed.
Ltac andbs H := apply andb_true_iff in H; let H' := fresh H in destruct H as [H H'].
Lemma inh_lit d fs : NoDup (map fst fs) -> Forall2 (fun p q => fst p = fst q /\ hidden (fst p) = false /\ inh false (snd (snd q)) (snd p)) d fs ->
  inh false (SRec None fs) (VDict d).
Proof.
  intros N F. assert (K : keys d = map fst fs) by (unfold keys; clear N; induction F as [|p q d fs (E & _) F IH]; [reflexivity | cbn [map]; now rewrite E, IH]).
  apply inh_rec.
  - now rewrite K.
  - unfold name_is. destruct (dget "_name" d) as [x|] eqn:E; [|easy]. apply dget_In in E. clear K N. exfalso. induction F as [|p q d fs (E1 & E2 & _) F IH]; [destruct E|].
    destruct E as [-> | E]; [discriminate | auto].
  - intros k x Hin. right. clear K. induction F as [|p q d fs (E1 & E2 & E3) F IH]; [destruct Hin|]. destruct q as [j [b s]]. cbn [map fst snd sget] in *. inversion_clear N as [|? ? N1 N2].
    destruct Hin as [-> | Hin].
    + cbn [fst snd] in *. subst j. rewrite String.eqb_refl. eauto.
    + destruct (String.eqb_spec k j) as [->|_]; [|auto]. destruct (IH N2 Hin) as (s' & Es & _). destruct N1. apply sget_In in Es as [b' Es]. apply in_map_iff. now exists (j, (b', s')).
  - intros k s Hin. rewrite K. apply in_map_iff. now exists (k, (true, s)).
Qed.
Lemma civil_bounds z y m d : min_day <= z <= max_day -> civil_of z = (y, m, d) -> 1 <= y <= 9999 /\ 1 <= m <= 12 /\ 1 <= d <= 31.
Proof.
  intros Hz E. apply civil_of_days in E; [|exact Hz]. unfold civil_days in E.
  destruct ((1 <=? y) && (y <=? 9999) && (1 <=? m) && (m <=? 12) && (1 <=? d) && (d <=? days_in_month y m)) eqn:B; [|discriminate]. clear E.
  apply andb_true_iff in B as [B B1]. apply andb_true_iff in B as [B B2]. apply andb_true_iff in B as [B B3]. apply andb_true_iff in B as [B B4]. apply andb_true_iff in B as [B B5].
  apply Z.leb_le in B, B1, B2, B3, B4, B5. assert (days_in_month y m <= 31) by (unfold days_in_month; destruct (m =? 2); [destruct (is_leap y); lia|]; destruct ((m =? 4) || (m =? 6) || (m =? 9) || (m =? 11))%bool; lia). lia.
Qed.
Ltac lit := repeat (apply Forall2_cons; [split; [reflexivity | split; [reflexivity | cbn [fst snd]]]|]); [.. | apply Forall2_nil].
Lemma date_shape z : min_day <= z <= max_day -> inh false (SRec None date_rec) (case_date z).
Proof.
  intros Hz. unfold case_date. destruct (civil_of z) as [[y m] d] eqn:E. apply civil_bounds in E as (H1 & H2 & H3); [|exact Hz].
  apply inh_lit; [apply uniqs_nodup; reflexivity|]. unfold date_rec. lit; now constructor.
Qed.
Lemma secs_float us d z : (us # d == inject_Z z)%Q -> Z.abs z <= 2 ^ 53 -> (rnd64 (us # d) == inject_Z z)%Q.
Proof. intros H Hz. rewrite (rnd64_comp _ _ H), rnd64_int by exact Hz. reflexivity. Qed.
Lemma dt_shape us k : in_dt (us + k * 60 * 1000000) = true -> -1440 <= k <= 1440 -> inh false (SRec None dt_rec) (case_datetime us (k * 60)).
Proof.
  intros Hd Hk. unfold case_datetime. set (t := us + k * 60 * 1000000) in *. set (r := t mod 86400000000).
  assert (Hz : min_day <= t / 86400000000 <= max_day).
  { unfold in_dt in Hd. apply andb_true_iff in Hd as [H1 H2]. apply Z.leb_le in H1. apply Z.ltb_lt in H2. unfold min_us, max_us, min_day, max_day in *. Z.div_mod_to_equations; lia. }
  assert (Hr : 0 <= r < 86400000000) by (subst r; apply Z.mod_pos_bound; lia).
  destruct (civil_of (t / 86400000000)) as [[y m] d] eqn:E. apply civil_bounds in E as (H1 & H2 & H3); [|exact Hz].
  apply inh_lit; [apply uniqs_nodup; reflexivity|]. unfold dt_rec, date_rec. cbn [app]. lit.
  - now constructor.
  - now constructor.
  - now constructor.
  - constructor. Z.div_mod_to_equations; lia.
  - constructor. pose proof (Z.mod_pos_bound (r / 60000000) 60 ltac:(lia)). lia.
  - constructor. pose proof (Z.mod_pos_bound (r / 1000000) 60 ltac:(lia)). lia.
  - constructor. pose proof (Z.mod_pos_bound r 1000000 ltac:(lia)). lia.
  - eapply inh_flt; [exact Hk|]. apply secs_float; [|lia]. unfold Qeq, inject_Z. cbn [Qnum Qden]. lia.
Qed.
Lemma visible_keys fs k s : forallb (fun p : string * (bool * shape) => negb (hidden (fst p))) fs = true -> sget k fs = Some s -> hidden k = false.
Proof. intros H E. apply sget_In in E as [b Hin]. rewrite forallb_forall in H. specialize (H _ Hin). now apply negb_true_iff in H. Qed.
Lemma camel_rec fs d : NoDup (keys d) -> forallb (fun p : string * (bool * shape) => negb (hidden (fst p))) fs = true -> NoDup (map (fun p => camelcase (fst p)) fs) ->
  (forall k x, In (k, x) d -> hidden k = true \/ exists s, sget k fs = Some s /\ inh false (cased s) (case_val camelcase x)) ->
  (forall k s, In (k, (true, s)) fs -> In k (keys d)) ->
  inh false (SRec None (cased_flds fs)) (VDict (case_dict camelcase d [])).
Proof.
  intros ND V U Hin Hreq.
  assert (Inj : forall k k', In k (keys d) -> In k' (keys d) -> hidden k = false -> hidden k' = false -> camelcase k = camelcase k' -> k = k').
  { intros k k' Hk Hk' Vk Vk' E. apply in_map_iff in Hk as ([k0 x] & <- & Hk). apply in_map_iff in Hk' as ([k1 x'] & <- & Hk'). cbn [fst] in *.
    destruct (Hin _ _ Hk) as [C | (s & Es & _)]; [congruence|]. destruct (Hin _ _ Hk') as [C | (s' & Es' & _)]; [congruence|].
    apply sget_In in Es as [b Es]. apply sget_In in Es' as [b' Es']. clear -U E Es Es'. induction fs as [|q fs IH]; [destruct Es|]. cbn [map] in U. inversion_clear U as [|? ? U1 U2].
    destruct Es as [-> | Es], Es' as [Eq | Es']; try injection Eq as <- _; auto.
    - destruct U1. cbn [fst]. rewrite E. apply in_map_iff. now exists (k1, (b', s')).
    - subst q. destruct U1. cbn [fst]. rewrite <- E. apply in_map_iff. now exists (k0, (b, s)). }
  rewrite case_dict_seen; [| exact ND | exact Inj | intros k _ _ []]. cbn [app]. apply inh_rec.
  - clear Hreq Hin. induction d as [|[k x] d IH]; [constructor|]. inversion_clear ND as [|? ? N1 N2]. unfold seen. cbn [flat_map fst snd]. fold (seen camelcase (case_val camelcase) d).
    assert (Inj' : forall k k', In k (keys d) -> In k' (keys d) -> hidden k = false -> hidden k' = false -> camelcase k = camelcase k' -> k = k') by (intros; apply Inj; auto; now right).
    destruct (hidden k) eqn:Hh; cbn [app]; [auto|]. cbn [keys map fst]. constructor; [|apply IH; assumption]. intros C. apply seen_keys in C as (k' & Hk' & Vk' & E). apply N1.
    replace k with k'; [exact Hk'|]. apply Inj; auto; [now right | now left].
  - unfold name_is. apply dget_none. intros C. apply seen_keys in C as (k & _ & _ & E). pose proof (camel_visible k) as Hv. rewrite <- E in Hv. discriminate.
  - intros j y H. right. unfold seen in H. apply in_flat_map in H as ([k x] & Hk & H). cbn [fst snd] in H. destruct (hidden k) eqn:Hh; [destruct H|]. destruct H as [H | []]. injection H as <- <-.
    destruct (Hin _ _ Hk) as [C | (s & Es & Hs)]; [congruence|]. exists (cased s). split; [now apply sget_cased | exact Hs].
  - intros j s H. apply in_map_iff in H as ([k [b s']] & E & H). cbn [fst snd] in E. injection E as <- -> <-. pose proof (Hreq _ _ H) as Hk.
    apply in_map_iff in Hk as ([k0 x] & E & Hk). cbn [fst] in E. subst k0. unfold keys. apply in_map_iff. exists (camelcase k, case_val camelcase x). split; [reflexivity|].
    unfold seen. apply in_flat_map. exists (k, x). split; [exact Hk|]. cbn [fst snd]. rewrite forallb_forall in V. specialize (V _ H). apply negb_true_iff in V. cbn [fst] in V. rewrite V. now left.
Qed.
Lemma cps_cons a n : cps (String a n) = Z.of_nat (nat_of_ascii a) :: cps n. Proof. reflexivity. Qed.
Lemma cased_ok s : forall v, inh true s v -> inh false (cased s) (to_camelcase_dict v).
Proof.
  unfold to_camelcase_dict. induction s as [s Hs|m s IH|n fs IH|l IH] using shape_ind'; intros v H.
  - destruct s; try (destruct Hs); inversion H; subst; cbn [cased case_val]; try (now constructor).
    + (* SEnum *) constructor. eapply enum_bounds. eassumption.
    + (* SFlt *) eapply inh_flt; eassumption.
    + (* SSecs *) destruct ((- 2 ^ 53 <=? lo) && (hi <=? 2 ^ 53))%bool eqn:B; [|constructor]. apply andb_true_iff in B as [B1 B2]. apply Z.leb_le in B1, B2.
      eapply inh_flt; [eassumption|]. apply secs_float; [|lia]. unfold Qeq, inject_Z. cbn [Qnum Qden]. lia.
    + now apply date_shape.
    + now apply dt_shape.
  - inversion H as [| | | | | | | | | | | | | | | |m' s' l' H1 H2|m' s' l' Hb H1 H2| | |]; subst; cbn [cased case_val]; constructor.
    + intros x Hx. apply in_map_iff in Hx as (y & <- & Hy). auto.
    + intros k Hk. rewrite map_length. auto.
    + intros x Hx. apply in_map_iff in Hx as (y & <- & Hy). auto.
    + intros k Hk. rewrite map_length. auto.
  - inversion H as [| | | | | | | | | | | | | | | | | |n' fs' d H1 H2 H3 H4| |]; subst. rewrite case_val_dict. cbn [cased]. rewrite cased_flds_eq.
    destruct (forallb (fun p => negb (hidden (fst p))) fs && uniqs (map (fun p => camelcase (fst p)) fs))%bool eqn:B; [|constructor]. apply andb_true_iff in B as [B1 B2]. apply uniqs_nodup in B2.
    assert (R : inh false (SRec None (cased_flds fs)) (VDict (case_dict camelcase d []))).
    { apply camel_rec; [exact H1 | exact B1 | exact B2 | | exact H4]. intros k x Hin. destruct (H3 _ _ Hin) as [[_ C] | (s & Es & Hs)]; [now left | right]. exists s. split; [exact Es|].
      apply sget_In in Es as [b Es]. rewrite Forall_forall in IH. exact (IH _ Es x Hs). }
    unfold name_is in H2. rewrite H2. destruct n as [n|]; [|exact R]. destruct n as [|a n]; [constructor|].
    rewrite cps_cons. unfold wrapped. rewrite <- cps_cons, ascii_cps. destruct (hidden (String a n)) eqn:Hn; [constructor|]. revert Hn. generalize (String a n). intros nm Hn.
    apply inh_rec; [constructor; [intros [] | constructor] | | |].
    + unfold name_is. cbn [dget]. destruct (String.eqb_spec "_name" nm) as [<-|_]; [discriminate | easy].
    + intros k x [E | []]. injection E as <- <-. right. cbn [sget]. rewrite String.eqb_refl. eauto.
    + intros k s [E | []]. injection E as <- _. now left.
  - inversion H as [| | | | | | | | | | | | | | | | | | |l' s v' Hin Hs|]; subst. cbn [cased]. eapply inh_alt; [apply in_map; exact Hin|]. rewrite Forall_forall in IH. auto.
Qed.

(** *** Looking members up *)
Fixpoint line_targets (k : string) (l : line) {struct l} : list target :=
  match l with
  | LField (Some j) _ t => if String.eqb k j then [TT t] else []
  | LUnion (Some j) ms => if String.eqb k j then [TU ms] else []
  | LUnion None ms => (fix go (ms : list line) : list target := match ms with [] => [] | m :: ms' => line_targets k m ++ go ms' end) ms
  | LField None _ _ => []
  end.
Definition targets_of (ls : list line) (k : string) : list target := flat_map (line_targets k) ls.
Lemma line_targets_inner k ms : line_targets k (LUnion None ms) = targets_of ms k.
Proof. cbn [line_targets]. induction ms as [|m ms IH]; [reflexivity|]. unfold targets_of. cbn [flat_map]. now rewrite IH. Qed.
Lemma member_targets ls k tg : member_of ls k tg -> In tg (targets_of ls k).
Proof.
  induction 1 as [ls k n t H|ls k ms H|ls ms k tg H _ IH]; apply in_flat_map; eexists; (split; [exact H|]).
  - cbn [line_targets]. rewrite String.eqb_refl. now left.
  - cbn [line_targets]. rewrite String.eqb_refl. now left.
  - rewrite line_targets_inner. exact IH.
Qed.
Lemma targets_member_line l : forall k tg, In tg (line_targets k l) -> forall ls, In l ls -> member_of ls k tg.
Proof.
  induction l as [j n t|j ms IH] using line_ind'; intros k tg H ls Hl.
  - destruct j as [j|]; cbn [line_targets] in H; [|destruct H]. destruct (String.eqb_spec k j) as [->|_]; [|destruct H]. destruct H as [<- | []]. eapply member_field; eassumption.
  - destruct j as [j|].
    + cbn [line_targets] in H. destruct (String.eqb_spec k j) as [->|_]; [|destruct H]. destruct H as [<- | []]. eapply member_union; eassumption.
    + rewrite line_targets_inner in H. unfold targets_of in H. apply in_flat_map in H as (m & Hm & H). eapply member_inner; [exact Hl|]. rewrite Forall_forall in IH. eapply IH; eassumption.
Qed.
Lemma targets_member ls k tg : In tg (targets_of ls k) -> member_of ls k tg.
Proof. unfold targets_of. intros H. apply in_flat_map in H as (l & Hl & H). eapply targets_member_line; eassumption. Qed.

(** *** Conditions on parts of a value *)
Inductive at_path : list string -> val -> val -> Prop :=
| at_here v : at_path [] v v
| at_key k p d x y : dget k d = Some x -> at_path p x y -> at_path (k :: p) (VDict d) y.
Inductive cond := Absent | Small | Present.
(** there is no such part; it is a whole number of one byte; it is not None *)
Definition holds (c : cond) (x : val) : Prop :=
  match c with
  | Absent => False
  | Small => exists z, 0 <= z <= 255 /\ (x = VInt z \/ exists q, x = VFloat q /\ (q == inject_Z z)%Q)
  | Present => x <> VNone
  end.
Definition conds := list (list string * cond).
Definition meets (C : conds) (v : val) : Prop := forall p c x, In (p, c) C -> at_path p v x -> holds c x.
Definition under (k : string) (C : conds) : conds := flat_map (fun q => match fst q with j :: p => if String.eqb k j then [(p, snd q)] else [] | [] => [] end) C.
Lemma under_meets k C d x : meets C (VDict d) -> dget k d = Some x -> meets (under k C) x.
Proof.
  intros M E p c y Hin Hy. unfold under in Hin. apply in_flat_map in Hin as ([q c'] & Hq & Hin). cbn [fst snd] in Hin. destruct q as [|j q]; [destruct Hin|].
  destruct (String.eqb_spec k j) as [->|_]; [|destruct Hin]. destruct Hin as [E' | []]. injection E' as -> ->. eapply M; [exact Hq|]. econstructor; eassumption.
Qed.
Definition cond_eqb (a b : cond) : bool := match a, b with Absent, Absent | Small, Small | Present, Present => true | _, _ => false end.
Definition here (c : cond) (C : conds) : bool := existsb (fun q => match fst q with [] => cond_eqb c (snd q) | _ => false end) C.
Lemma here_meets c C v : here c C = true -> meets C v -> holds c v.
Proof.
  intros H M. unfold here in H. apply existsb_exists in H as ([p c'] & Hin & H). cbn [fst snd] in H. destruct p; [|discriminate]. replace c' with c in Hin by (destruct c, c'; easy).
  eapply M; [exact Hin | constructor].
Qed.

(** *** Checking that every value of a shape fits *)
Fixpoint aget {A} (k : string) (l : list (string * A)) : option A := match l with [] => None | (j, x) :: l' => if String.eqb k j then Some x else aget k l' end.
Lemma aget_In {A} k (l : list (string * A)) x : aget k l = Some x -> In (k, x) l.
Proof. induction l as [|[j y] l IH]; cbn [aget]; [discriminate|]. destruct (String.eqb_spec k j) as [->|_]; intros E; [injection E as ->; now left | right; auto]. Qed.
Definition in_type (t : string) (lo hi : Z) : bool := match aget t int_types with Some (a, b) => (a <=? lo) && (hi <=? b) | None => false end.
Definition is_float (t : string) : bool := inb t float_types.
Definition required (fs : flds) : list string := flat_map (fun p : string * (bool * shape) => if fst (snd p) then [fst p] else []) fs.
Lemma required_In k fs : In k (required fs) -> exists s, In (k, (true, s)) fs.
Proof. unfold required. intros H. apply in_flat_map in H as ([j [b s]] & Hin & H). cbn [fst snd] in H. destruct b; [|destruct H]. destruct H as [<- | []]. eauto. Qed.
Definition covers (ls : list line) (fs : flds) : bool :=
  forallb (fun l => match l with
    | LField (Some k) _ _ | LUnion (Some k) _ => inb k (required fs)
    | LUnion None ms => match filter (fun k => match targets_of ms k with [] => false | _ => true end) (map fst fs) with [k] => inb k (required fs) | _ => false end
    | LField None _ _ => true
    end) ls.
Section Checks.
Variable sch : schema.
(** no value of the record meets the conditions: it always has a part that must not be there, or a None *)
Definition ruled_out (fs : flds) (C : conds) : bool :=
  existsb (fun k => here Absent (under k C) || (here Present (under k C) && match sget k fs with Some SNone => true | _ => false end)) (required fs).
Fixpoint chk (s : shape) (tg : target) (C : conds) {struct s} : bool :=
  here Absent C ||
  (here Small C && match tg with TT t => in_type t 0 255 | TU _ => false end) ||
  match s with
  | SInt lo hi => match tg with TT t => in_type t lo hi || is_float t | TU _ => false end
  | SBool => match tg with TT t => String.eqb t "Bool" | TU _ => false end
  | SNum => match tg with TT t => is_float t | TU _ => false end
  | SFlt lo hi => match tg with TT t => in_type t lo hi || is_float t | TU _ => false end
  | SStr => match tg with TT t => inb t text_types | TU _ => false end
  | SList _ s1 => match tg with TT t => match unlist t with Some u => String.eqb t ("List(" ++ u ++ ")") && chk s1 (TT u) [] | None => false end | TU _ => false end
  | SAlt l => forallb (fun s => chk s tg C) l
  | SRec _ fs =>
      ruled_out fs C ||
      match tg with
      | TU ms => match fs with [(k, (true, s1))] => match targets_of ms k with tg1 :: _ => chk s1 tg1 (under k C) | [] => false end | _ => false end
      | TT t =>
          match aget t sch with
          | Some (Some ls) =>
              covers ls fs &&
              (fix go (fs : flds) : bool := match fs with [] => true | (k, (_, s1)) :: fs' =>
                 match targets_of ls k with tg1 :: _ => chk s1 tg1 (under k C) | [] => false end && go fs' end) fs
          | _ => false
          end
      end
  | _ => false
  end.
Lemma in_type_ok t lo hi z : in_type t lo hi = true -> lo <= z <= hi -> exists a b, In (t, (a, b)) int_types /\ a <= z <= b.
Proof.
  unfold in_type. destruct (aget t int_types) as [[a b]|] eqn:E; [|discriminate]. intros H Hz. apply andb_true_iff in H as [H1 H2]. apply Z.leb_le in H1, H2. exists a, b. split; [now apply aget_In | lia].
Qed.
Lemma rec_get n fs d k x : inh false (SRec n fs) (VDict d) -> dget k d = Some x -> exists s, sget k fs = Some s /\ inh false s x.
Proof. intros H E. inversion H as [| | | | | | | | | | | | | | | | | |n' fs' d' H1 H2 H3 H4| |]; subst. destruct (H3 _ _ (dget_In _ _ _ E)) as [[C _] | C]; [discriminate | exact C]. Qed.
Lemma rec_req n fs d k : inh false (SRec n fs) (VDict d) -> In k (required fs) -> exists x, dget k d = Some x.
Proof.
  intros H E. inversion H as [| | | | | | | | | | | | | | | | | |n' fs' d' H1 H2 H3 H4| |]; subst. apply required_In in E as [s E]. apply H4 in E. apply keys_dget in E. destruct (dget k d); [eauto | easy].
Qed.
Lemma ruled_out_ok n fs C d : inh false (SRec n fs) (VDict d) -> meets C (VDict d) -> ruled_out fs C = true -> False.
Proof.
  intros H M R. unfold ruled_out in R. apply existsb_exists in R as (k & Hk & R). destruct (rec_req _ _ _ _ H Hk) as [x Ex]. pose proof (under_meets _ _ _ _ M Ex) as Mx. apply orb_true_iff in R as [R | R].
  - exact (here_meets _ _ _ R Mx).
  - apply andb_true_iff in R as [R1 R2]. apply (here_meets _ _ _ R1 Mx). destruct (rec_get _ _ _ _ _ H Ex) as (s & Es & Hs). rewrite Es in R2. destruct s; try discriminate. now inversion Hs.
Qed.
Definition scope_chk (C : conds) (ls : list line) (fs : flds) : bool :=
  forallb (fun p => match targets_of ls (fst p) with tg1 :: _ => chk (snd (snd p)) tg1 (under (fst p) C) | [] => false end) fs.
Lemma scope_chk_eq C ls fs : (fix go (fs : flds) : bool := match fs with [] => true | (k, (_, s1)) :: fs' =>
                 match targets_of ls k with tg1 :: _ => chk s1 tg1 (under k C) | [] => false end && go fs' end) fs = scope_chk C ls fs.
Proof. induction fs as [|[k [b s]] fs IH]; [reflexivity|]. unfold scope_chk. cbn [forallb fst snd]. now rewrite IH. Qed.
Lemma sget_key k fs s : sget k fs = Some s -> In k (map fst fs).
Proof. intros H. apply sget_In in H as [b H]. apply in_map_iff. now exists (k, (b, s)). Qed.
Lemma chk_ok s : forall tg C v, chk s tg C = true -> inh false s v -> meets C v -> fits sch tg v.
Proof.
  induction s as [s Hs|m s IH|n fs IH|l IH] using shape_ind'; intros tg C v H Hi M.
  all: assert (Pre : here Absent C || (here Small C && match tg with TT t => in_type t 0 255 | TU _ => false end) = true -> fits sch tg v);
    [intros Hp; apply orb_true_iff in Hp as [Hp | Hp]; [destruct (here_meets _ _ _ Hp M) | apply andb_true_iff in Hp as [H1 H2]; destruct tg as [t|]; [|discriminate];
       destruct (here_meets _ _ _ H1 M) as (z & Hz & Hv); destruct (in_type_ok _ _ _ _ H2 Hz) as (a & b & Hin & Hb); destruct Hv as [-> | (q & -> & Eq)]; [eapply fits_int; eassumption | eapply fits_whole; eassumption]]|].
  - destruct s; try (destruct Hs); cbn [chk] in H; apply orb_true_iff in H as [H | H]; try (exact (Pre H)); try discriminate; destruct tg as [t|]; try discriminate; inversion Hi; subst.
    + apply orb_true_iff in H as [H | H]; [destruct (in_type_ok _ _ _ _ H ltac:(eassumption)) as (a & b & Hin & Hb); eapply fits_int; eassumption | apply fits_float; [now apply inb_in | exact I]].
    + apply String.eqb_eq in H as ->. constructor.
    + apply fits_float; [now apply inb_in | exact I].
    + apply fits_float; [now apply inb_in | exact I].
    + apply fits_float; [now apply inb_in | exact I].
    + apply fits_float; [now apply inb_in | exact I].
    + apply orb_true_iff in H as [H | H]; [destruct (in_type_ok _ _ _ _ H ltac:(eassumption)) as (a & b & Hin & Hb); eapply fits_whole; eassumption | apply fits_float; [now apply inb_in | exact I]].
    + apply fits_text. now apply inb_in.
  - cbn [chk] in H. apply orb_true_iff in H as [H | H]; [exact (Pre H)|]. destruct tg as [t|]; [|discriminate]. destruct (unlist t) as [u|]; [|discriminate]. apply andb_true_iff in H as [H1 H2]. apply String.eqb_eq in H1.
    inversion Hi as [| | | | | | | | | | | | | | | |m' s' l' G1 G2|m' s' l' Cx G1 G2| | |]; subst; [|discriminate].
    apply fits_list. intros x Hx. eapply IH; [exact H2 | auto | intros p c y []].
  - cbn [chk] in H. apply orb_true_iff in H as [H | H]; [exact (Pre H)|]. inversion Hi as [| | | | | | | | | | | | | | | | | |n' fs' d G1 G2 G3 G4| |]; subst.
    apply orb_true_iff in H as [H | H]; [destruct (ruled_out_ok _ _ _ _ Hi M H)|]. destruct tg as [t|ms].
    + destruct (aget t sch) as [[ls|]|] eqn:El; try discriminate. apply andb_true_iff in H as [Hc H]. rewrite scope_chk_eq in H. unfold scope_chk in H. rewrite forallb_forall in H.
      unfold covers in Hc. rewrite forallb_forall in Hc.
      assert (Req : forall k, inb k (required fs) = true -> In k (keys d)).
      { intros k Hk. apply inb_in, required_In in Hk as [s Hk]. eauto. }
      eapply fits_struct; [apply aget_In; exact El | exact G1 | | | |].
      * intros k x Hin. apply nodup_dget in Hin; [|exact G1]. destruct (rec_get _ _ _ _ _ Hi Hin) as (s & Es & Hs). destruct (sget_In _ _ _ Es) as [b Hb]. specialize (H _ Hb). cbn [fst snd] in H.
        destruct (targets_of ls k) as [|tg tgs] eqn:Et; [discriminate|]. exists tg. split; [apply targets_member; rewrite Et; now left|]. rewrite Forall_forall in IH.
        eapply (IH _ Hb); [exact H | exact Hs | eapply under_meets; eassumption].
      * intros k j u Hl. apply Req. exact (Hc _ Hl).
      * intros k us Hl. apply Req. exact (Hc _ Hl).
      * intros us Hl. pose proof (Hc _ Hl) as Hu. cbn beta iota in Hu.
        destruct (filter (fun k => match targets_of us k with [] => false | _ => true end) (map fst fs)) as [|k [|? ?]] eqn:Ef; try discriminate. exists k.
        assert (Hk : In k (filter (fun k => match targets_of us k with [] => false | _ => true end) (map fst fs))) by (rewrite Ef; now left).
        split; [now apply Req|]. apply filter_In in Hk as [_ Hk]. split.
        -- destruct (targets_of us k) as [|tg ?] eqn:Et; [discriminate|]. exists tg. apply targets_member. rewrite Et. now left.
        -- intros j tg Hj Hd. apply keys_dget in Hd. destruct (dget j d) as [x|] eqn:Ex; [|easy]. destruct (rec_get _ _ _ _ _ Hi Ex) as (s & Es & _).
           assert (Hin : In j (filter (fun k => match targets_of us k with [] => false | _ => true end) (map fst fs))).
           { apply filter_In. split; [now apply (sget_key _ _ s)|]. apply member_targets in Hj. now destruct (targets_of us j). }
           rewrite Ef in Hin. now destruct Hin as [->|[]].
    + destruct fs as [|[k [b s]] [|? ?]]; try discriminate; destruct b; try discriminate. destruct (targets_of ms k) as [|tg ?] eqn:Et; [discriminate|].
      assert (Hk : In k (keys d)) by (apply (G4 k s); now left). assert (Ed : exists x, d = [(k, x)]).
      { assert (Hall : forall j x, In (j, x) d -> j = k).
        { intros j x Hin. apply nodup_dget in Hin; [|exact G1]. destruct (rec_get _ _ _ _ _ Hi Hin) as (s' & Es & _). cbn [sget] in Es. now destruct (String.eqb_spec j k). }
        destruct d as [|[j x] d]; [destruct Hk|]. pose proof (Hall j x (or_introl eq_refl)) as ->. exists x. destruct d as [|[i y] d]; [reflexivity|].
        pose proof (Hall i y (or_intror (or_introl eq_refl))) as ->. inversion_clear G1 as [|? ? N _]. destruct N. now left. }
      destruct Ed as [x ->]. apply fits_union with tg; [apply targets_member; rewrite Et; now left|]. inversion_clear IH as [|? ? I1 _]. cbn [fst snd] in I1.
      assert (Ex : dget k [(k, x)] = Some x) by (cbn [dget]; now rewrite String.eqb_refl).
      destruct (rec_get _ _ _ _ _ Hi Ex) as (s' & Es & Hs). cbn [sget] in Es. rewrite String.eqb_refl in Es. injection Es as <-. eapply I1; [exact H | exact Hs | eapply under_meets; eassumption].
  - cbn [chk] in H. apply orb_true_iff in H as [H | H]; [exact (Pre H)|]. rewrite forallb_forall in H. inversion Hi as [| | | | | | | | | | | | | | | | | | |l' s v' Hin Hs|]; subst.
    rewrite Forall_forall in IH. eapply (IH _ Hin); [exact (H _ Hin) | exact Hs | exact M].
Qed.

(** *** Checking that no value of a shape that breaks a condition fits *)
Definition scopes (tg : target) : list (list line) :=
  match tg with
  | TU ms => [ms]
  | TT t => flat_map (fun p => if String.eqb t (fst p) then match snd p with Some ls => [ls] | None => [] end else []) sch
  end.
Lemma scopes_in t ls : In (t, Some ls) sch -> In ls (scopes (TT t)).
Proof. intros H. apply in_flat_map. exists (t, Some ls). split; [exact H|]. cbn [fst snd]. rewrite String.eqb_refl. now left. Qed.
Definition two (l : list string) : bool := match l with a :: b :: _ => negb (String.eqb a b) | _ => false end.
Fixpoint never (s : shape) (tg : target) (p : list string) (c : cond) {struct s} : bool :=
  match s with
  | SAlt l => forallb (fun s => never s tg p c) l
  | SRec _ fs =>
      match p with
      | k :: p' =>
          (fix go (fs : flds) : bool := match fs with
             | [] => true
             | (j, (_, s1)) :: fs' => if String.eqb k j then forallb (fun ls => forallb (fun tg1 => never s1 tg1 p' c) (targets_of ls k)) (scopes tg) else go fs'
             end) fs
      | [] =>
          match c with
          | Present => true
          | Small => false
          | Absent =>
              match tg with TU _ => two (required fs) || match fs with [] => true | _ => false end | TT _ => false end ||
              uniqs (map fst fs) && (fix go (fs : flds) : bool := match fs with
                 | [] => false
                 | (j, (b, s1)) :: fs' => (b && forallb (fun ls => forallb (fun tg1 => never s1 tg1 [] c) (targets_of ls j)) (scopes tg)) || go fs'
                 end) fs
          end
      end
  | SAny => false
  | s =>
      match p with
      | _ :: _ => true
      | [] =>
          match c with
          | Present => true
          | Small => match tg with TT t => String.eqb t "UInt8" | TU _ => false end
          | Absent =>
              match s with
              | SInt _ _ => match tg with TU _ => true | TT t => match aget t int_types with None => negb (is_float t) | Some _ => false end end
              | SIp | SNone => true
              | _ => false
              end
          end
      end
  end.
Definition never_path (k : string) (p : list string) (c : cond) (tg : target) (fs : flds) : bool :=
  match sget k fs with Some s1 => forallb (fun ls => forallb (fun tg1 => never s1 tg1 p c) (targets_of ls k)) (scopes tg) | None => true end.
Lemma never_path_eq k p c tg fs : (fix go (fs : flds) : bool := match fs with
             | [] => true
             | (j, (_, s1)) :: fs' => if String.eqb k j then forallb (fun ls => forallb (fun tg1 => never s1 tg1 p c) (targets_of ls k)) (scopes tg) else go fs'
             end) fs = never_path k p c tg fs.
Proof. unfold never_path. induction fs as [|[j [b s]] fs IH]; [reflexivity|]. cbn [sget]. destruct (String.eqb k j); [reflexivity | exact IH]. Qed.
Definition never_here (c : cond) (tg : target) (fs : flds) : bool :=
  existsb (fun q => fst (snd q) && forallb (fun ls => forallb (fun tg1 => never (snd (snd q)) tg1 [] c) (targets_of ls (fst q))) (scopes tg)) fs.
Lemma never_here_eq c tg fs : (fix go (fs : flds) : bool := match fs with
                 | [] => false
                 | (j, (b, s1)) :: fs' => (b && forallb (fun ls => forallb (fun tg1 => never s1 tg1 [] c) (targets_of ls j)) (scopes tg)) || go fs'
                 end) fs = never_here c tg fs.
Proof. unfold never_here. induction fs as [|[j [b s]] fs IH]; [reflexivity|]. cbn [existsb fst snd]. f_equal. exact IH. Qed.
(** the entry of a dict that fits fits a member of the scope *)
Lemma fits_entry tg d k x : fits sch tg (VDict d) -> dget k d = Some x -> exists ls tg1, In ls (scopes tg) /\ In tg1 (targets_of ls k) /\ fits sch tg1 x.
Proof.
  intros F E. inversion F as [| | |t v Ht Hn| | |t ls d' Hl N Hm _ _ _|ms j tg1 y Hm Hf]; subst.
  - destruct Hn.
  - destruct (Hm _ _ (dget_In _ _ _ E)) as (tg1 & Hk & Hf). exists ls, tg1. repeat split; [now apply scopes_in | now apply member_targets | exact Hf].
  - cbn [dget] in E. destruct (String.eqb_spec k j) as [->|_]; [|discriminate]. injection E as ->. exists ms, tg1. repeat split; [now left | now apply member_targets | exact Hf].
Qed.
Lemma none_unfit tg : ~ fits sch tg VNone. Proof. intros F. inversion F; subst. assumption. Qed.
Lemma ip_unfit tg l : ~ fits sch tg (VIPv4 l). Proof. intros F. inversion F; subst. assumption. Qed.
Lemma small_fits x : fits sch (TT "UInt8") x -> holds Small x \/ exists d, x = VDict d.
Proof.
  intros F. inversion F as [|t lo hi z Hin Hz|t lo hi z q Hin Hz Hq|t v Hin|t s Hin|t l Hl|t ls d|]; subst.
  - left. exists z. split; [|now left]. repeat (destruct Hin as [E | Hin]; [try discriminate; injection E as <- <-; lia|]). destruct Hin.
  - left. exists z. split; [|right; now exists q]. repeat (destruct Hin as [E | Hin]; [try discriminate; injection E as <- <-; lia|]). destruct Hin.
  - repeat (destruct Hin as [E | Hin]; [discriminate|]). destruct Hin.
  - repeat (destruct Hin as [E | Hin]; [discriminate|]). destruct Hin.
  - right. eauto.
Qed.
Lemma sget_uniq fs k b s : NoDup (map fst fs) -> In (k, (b, s)) fs -> sget k fs = Some s.
Proof.
  induction fs as [|[j [b' s']] fs IH]; [easy|]. cbn [map fst sget]. intros N H. inversion_clear N as [|? ? N1 N2]. destruct H as [H | H].
  - injection H as -> -> ->. now rewrite String.eqb_refl.
  - destruct (String.eqb_spec k j) as [->|_]; [|auto]. destruct N1. apply in_map_iff. now exists (j, (b, s)).
Qed.
Lemma int_unfit tg z : match tg with TU _ => true | TT t => match aget t int_types with None => negb (is_float t) | Some _ => false end end = true -> ~ fits sch tg (VInt z).
Proof.
  intros H F. inversion F as [|t lo hi z' Hin Hz| |t v Hin Hn| | | |]; subst.
  - destruct (aget t int_types) eqn:E; [discriminate|]. clear -E Hin. repeat (destruct Hin as [C | Hin]; [injection C as <- _ _; discriminate|]). destruct Hin.
  - destruct (aget t int_types); [discriminate|]. apply negb_true_iff in H. apply inb_not in H. auto.
Qed.
Lemma small_leaf tg x : match tg with TT t => String.eqb t "UInt8" | TU _ => false end = true -> (forall d, x <> VDict d) -> ~ holds Small x -> ~ fits sch tg x.
Proof. intros H Hd Hs F. destruct tg as [t|]; [|discriminate]. apply String.eqb_eq in H as ->. apply small_fits in F as [F | [d F]]; [auto | exact (Hd _ F)]. Qed.
Lemma never_ok s : forall tg p c v x, never s tg p c = true -> inh false s v -> at_path p v x -> ~ holds c x -> ~ fits sch tg v.
Proof.
  induction s as [s Hs|m s IH|n fs IH|l IH] using shape_ind'; intros tg p c v x H Hi Ha Hc F.
  - assert (Hd : match s with SAny => True | _ => forall d, v <> VDict d end) by (destruct s; try (destruct Hs); try exact I; intros d ->; inversion Hi).
    destruct p as [|k p].
    + inversion Ha; subst. destruct c; [| |destruct s; try discriminate; elim Hc; intros ->; exact (none_unfit _ F)].
      * destruct s; try (destruct Hs); try discriminate; inversion Hi; subst; [eapply int_unfit; eassumption | eapply none_unfit; eassumption | eapply ip_unfit; eassumption].
      * destruct s; try (destruct Hs); try discriminate; cbn [never] in H; revert F; apply small_leaf; assumption.
    + inversion Ha; subst. destruct s; try discriminate; eapply Hd; reflexivity.
  - assert (Hd : forall d, v <> VDict d) by (intros d ->; inversion Hi). destruct p as [|k p]; [|inversion Ha; subst; eapply Hd; reflexivity].
    inversion Ha; subst. cbn [never] in H. destruct c; [discriminate | revert F; now apply small_leaf | elim Hc; intros ->; exact (none_unfit _ F)].
  - inversion Hi as [| | | | | | | | | | | | | | | | | |n' fs' d G1 G2 G3 G4| |]; subst. cbn [never] in H. destruct p as [|k p].
    + inversion Ha; subst. destruct c.
      * apply orb_true_iff in H as [H | H].
        -- destruct tg as [|ms]; [discriminate|]. inversion F as [| | | | | | |ms' j tg1 y Hm Hf]; subst. apply orb_true_iff in H as [H | H];
             [|destruct fs; [destruct (G3 j y (or_introl eq_refl)) as [[C _] | (s & C & _)]; discriminate | discriminate]].
           destruct (required fs) as [|a [|b r]] eqn:Er; try discriminate. cbn [two] in H. apply negb_true_iff, String.eqb_neq in H.
           assert (Ha' : exists x, dget a [(j, y)] = Some x) by (eapply rec_req; [exact Hi | rewrite Er; now left]).
           assert (Hb' : exists x, dget b [(j, y)] = Some x) by (eapply rec_req; [exact Hi | rewrite Er; right; now left]).
           cbn [dget] in Ha', Hb'. destruct (String.eqb_spec a j), (String.eqb_spec b j); destruct Ha', Hb'; congruence.
        -- apply andb_true_iff in H as [Hu H]. apply uniqs_nodup in Hu. rewrite never_here_eq in H. unfold never_here in H. apply existsb_exists in H as ([k [b s]] & Hin & H). cbn [fst snd] in H. apply andb_true_iff in H as [-> H].
           pose proof (G4 _ _ Hin) as Hk. apply keys_dget in Hk. destruct (dget k d) as [y|] eqn:Ey; [|easy]. destruct (fits_entry _ _ _ _ F Ey) as (ls & tg1 & Hl & Ht & Hf).
           rewrite forallb_forall in H. specialize (H _ Hl). rewrite forallb_forall in H. specialize (H _ Ht). rewrite Forall_forall in IH.
           destruct (rec_get _ _ _ _ _ Hi Ey) as (s' & Es & Hs). rewrite (sget_uniq _ _ _ _ Hu Hin) in Es. injection Es as <-.
           eapply (IH _ Hin); [exact H | exact Hs | constructor | exact (fun C => C) | exact Hf].
      * discriminate.
      * elim Hc. discriminate.
    + inversion Ha as [|k' p' d' y x' Ey Ha']; subst. rewrite never_path_eq in H. unfold never_path in H. destruct (rec_get _ _ _ _ _ Hi Ey) as (s & Es & Hs). rewrite Es in H.
      destruct (fits_entry _ _ _ _ F Ey) as (ls & tg1 & Hl & Ht & Hf). rewrite forallb_forall in H. specialize (H _ Hl). rewrite forallb_forall in H. specialize (H _ Ht).
      destruct (sget_In _ _ _ Es) as [b Hb]. rewrite Forall_forall in IH. eapply (IH _ Hb); eassumption.
  - cbn [never] in H. rewrite forallb_forall in H. inversion Hi as [| | | | | | | | | | | | | | | | | | |l' s v' Hin Hs|]; subst. rewrite Forall_forall in IH. eapply (IH _ Hin); eauto.
Qed.
End Checks.

(** *** C54 *)
Open Scope string_scope.
Definition schema_limits : conds :=
  (* opcodes of no model of the library *)
  [(["params"], Absent);
   (* numbers of heartbeats, kept in one byte of the schema *)
   (["configHearbeatPublicationSet"; "count"], Small); (["configHearbeatPublicationSet"; "period"], Small);
   (["configHearbeatPublicationStatus"; "count"], Small); (["configHearbeatPublicationStatus"; "period"], Small);
   (["configHearbeatSubscriptionSet"; "periodLog"], Small);
   (["configHearbeatSubscriptionStatus"; "count"], Small); (["configHearbeatSubscriptionStatus"; "periodLog"], Small);
   (* a time that is not known *)
   (["timeSet"; "date"], Present); (["timeStatus"; "date"], Present);
   (* credential_flag is an int, the schema has a Bool *)
   (["configModelPublicationSet"], Absent); (["configModelPublicationStatus"], Absent); (["configModelPublicationVirtualAddressSet"], Absent);
   (* messages the generator leaves out *)
   (["sensorColumnGet"], Absent); (["sensorColumnStatus"], Absent); (["sensorSeriesGet"], Absent); (["sensorSeriesStatus"], Absent);
   (["sensorCadenceSet"], Absent); (["sensorCadenceSetUnacknowledged"], Absent); (["sensorCadenceStatus"], Absent);
   (["silvairNds"; "radioStatSet"], Absent); (["silvairNds"; "radioStatStatus"], Absent);
   (["silvairLec"; "bulkLcPropertySet"], Absent); (["silvairLec"; "bulkLcPropertyStatus"], Absent); (["silvairLec"; "bulkLecPropertySet"], Absent);
   (["silvairLec"; "syncIntegralGet"], Absent);
   (["silvairGateway"; "gatewayConfigurationGet"], Absent); (["silvairGateway"; "gatewayPacketsGet"], Absent); (["silvairGateway"; "gatewayPacketsClear"], Absent);
   (* a union without its tag *)
   (["silvairGateway"; "gatewayConfigurationSet"], Absent); (["silvairRruleScheduler"], Absent);
   (* IPv4Address objects *)
   (["silvairGateway"; "dnsIpAddressSet"], Absent); (["silvairGateway"; "ipAddressSet"], Absent); (["silvairGateway"; "gatewayIpAddressSet"], Absent);
   (["silvairGateway"; "gatewayConfigurationStatus"], Absent)].
Close Scope string_scope.
Definition root : target := TT "AccessMessage".
Definition unknown_shape : shape := SRec None [("opcode"%string, (true, SInt 0 16777215)); ("params"%string, (true, SBytes))].
Definition shape_b (sch : schema) (C : conds) (s : shape) : bool := let s' := cased s in chk sch s' root C && forallb (fun q => never sch s' root (fst q) (snd q)) C.
Lemma limits_checked : forallb (shape_b library_schema schema_limits) (unknown_shape :: map (fun p => sh [] (snd p)) access_table) = true.
Proof. vm_cast_no_check (eq_refl true). Qed.
Lemma holds_dec c x : holds c x \/ ~ holds c x.
Proof.
  destruct c; cbn [holds]; [now right | | destruct x; try (left; discriminate); right; now intros H].
  assert (Z : forall z, (exists z', 0 <= z' <= 255 /\ z = z') \/ ~ (exists z', 0 <= z' <= 255 /\ z = z')).
  { intros z. destruct (Z_le_dec 0 z); [destruct (Z_le_dec z 255); [left; exists z; lia|]|]; right; intros (z' & Hz & ->); lia. }
  destruct x; try (right; intros (w1 & _ & [C | (w2 & C & _)]); discriminate).
  - destruct (Z z) as [(z' & Hz & ->) | H]; [left; exists z'; auto | right; intros (w & Hw & [C | (q & C & _)]); [injection C as ->; apply H; eauto | discriminate]].
  - destruct (Qeq_dec q (inject_Z (Qfloor q))) as [E | E].
    + destruct (Z (Qfloor q)) as [(z' & Hz & Ez) | H]; [left; exists z'; split; [exact Hz|]; right; exists q; split; [reflexivity | now rewrite <- Ez]|].
      right. intros (w & Hw & [C | (q' & C & Eq)]); [discriminate|]. injection C as <-. apply H. exists w. split; [exact Hw|]. now rewrite (Qfloor_comp _ _ Eq), Qfloor_Z.
    + right. intros (w & Hw & [C | (q' & C & Eq)]); [discriminate|]. injection C as <-. apply E. rewrite (Qfloor_comp _ _ Eq), Qfloor_Z. exact Eq.
Qed.
Lemma shape_b_spec sch C s v : shape_b sch C s = true -> inh true s v -> (fits sch root (to_camelcase_dict v) <-> meets C (to_camelcase_dict v)).
Proof.
  intros H Hi. apply cased_ok in Hi. unfold shape_b in H. apply andb_true_iff in H as [H1 H2]. rewrite forallb_forall in H2. split.
  - intros F p c x Hin Hx. destruct (holds_dec c x) as [Hc | Hc]; [exact Hc|]. exfalso. exact (never_ok sch _ _ _ _ _ _ (H2 _ Hin) Hi Hx Hc F).
  - intros M. exact (chk_ok sch _ _ _ _ H1 Hi M).
Qed.
Lemma access_inh s v : bytes s -> access_parse s = Ok v -> inh true unknown_shape v \/ exists t c, family t c /\ inh true (sh [] c) v.
Proof.
  intros B E. pose proof E as E0. unfold access_parse, access_parse_at in E. apply bind_ok in E as ([z r] & Eo & E). apply opcode_parse_bytes in Eo as (o & -> & Ho); [|exact B].
  destruct (access_lookup z) as [[m c]|] eqn:El.
  - apply access_lookup_spec in El as (t & n & Hf & Hm & _). right. exists t, c. split; [exact Hf|]. rewrite (access_parse_family t c n z o r Hf Hm Ho) in E0.
    unfold parse_msg in E0. apply bind_ok in E0 as ([w r'] & Ep & E0). injection E0 as ->. eapply parse_shape; [exact (access_wf _ _ Hf) | exact B | exact Ep].
  - left. injection E as <-. apply isrec_name; [|reflexivity]. apply (isrec_put [("opcode"%string, (true, SInt 0 16777215))] [("opcode"%string, VInt z)] "params" SBytes (VBytes r)); [|constructor].
    apply (isrec_put [] [] "opcode" (SInt 0 16777215) (VInt z)); [apply isrec_nil|]. constructor. apply opcode_bytes_legal in Ho. unfold legal_opcode in Ho. lia.
Qed.
Lemma in_table (t : enum) (c : con) l : In (t, c) l -> In (sh [] c) (map (fun p : enum * con => sh [] (snd p)) l).
Proof. intros H. apply in_map_iff. now exists (t, c). Qed.
(** Converted to camel case, a decoded message fits the struct AccessMessage of the generated schema if and only if it
    meets [schema_limits]. *)
Theorem C54_fits : forall s v, bytes s -> access_parse s = Ok v ->
  (fits library_schema (TT "AccessMessage") (to_camelcase_dict v) <-> meets schema_limits (to_camelcase_dict v)).
Proof.
  intros s v B E. fold root. pose proof limits_checked as L. generalize dependent library_schema. intros sch L. rewrite forallb_forall in L.
  destruct (access_inh s v B E) as [H | (t & c & Hf & H)].
  - exact (shape_b_spec _ _ _ _ (L _ (or_introl eq_refl)) H).
  - exact (shape_b_spec _ _ _ _ (L _ (or_intror (in_table _ _ _ Hf))) H).
Qed.
(** the schema is the one the generator writes *)
Theorem C54_schema : generate access_messages = Ok library_schema. Proof. exact library_ok. Qed.

(** Each of the limits is met with: a message that breaks it, so does not fit. *)
Fixpoint part (p : list string) (v : val) : option val :=
  match p with
  | [] => Some v
  | k :: p' => match v with VDict d => match dget k d with Some x => part p' x | None => None end | _ => None end
  end.
Lemma part_path p : forall v x, part p v = Some x -> at_path p v x.
Proof.
  induction p as [|k p IH]; cbn [part]; intros v x E; [injection E as ->; constructor|]. destruct v; try discriminate. destruct (dget k d) as [y|] eqn:Ey; [|discriminate]. econstructor; eauto.
Qed.
Definition broken (c : cond) (x : val) : bool := match c, x with Absent, _ => true | Small, VInt z => 255 <? z | Present, VNone => true | _, _ => false end.
Lemma broken_ok c x : broken c x = true -> ~ holds c x.
Proof.
  destruct c; cbn [holds]; [tauto | | destruct x; try discriminate; intros _ H; now apply H]. destruct x; try discriminate. cbn [broken]. intros H (w & Hw & [C | (q & C & _)]); [|discriminate].
  injection C as ->. apply Z.ltb_lt in H. lia.
Qed.
Definition z64 : list Z := repeat 0 64.
Definition beyond : list (list Z) :=
  [[0x90; 0x00; 1; 2; 3];
   [0x80; 0x39; 0; 0; 16; 16; 0; 0; 0; 0; 0]; [0x80; 0x39; 0; 0; 16; 16; 0; 0; 0; 0; 0];
   [0x06; 0; 0; 0; 16; 16; 0; 0; 0; 0; 0]; [0x06; 0; 0; 0; 16; 16; 0; 0; 0; 0; 0];
   [0x80; 0x3B; 0; 0; 0; 0; 16]; [0x80; 0x3C; 0; 0; 0; 0; 0; 16; 16; 0; 0]; [0x80; 0x3C; 0; 0; 0; 0; 0; 16; 16; 0; 0];
   [0x5C; 0; 0; 0; 0; 0]; [0x5D; 0; 0; 0; 0; 0];
   [0x03; 1; 0; 0; 0; 0; 0; 0; 0; 0; 0; 0]; [0x80; 0x19; 0; 1; 0; 0; 0; 0; 0; 0; 0; 0; 0; 0]; [0x80; 0x1A; 1; 0] ++ repeat 0 16 ++ [0; 0; 0; 0; 0; 0; 0];
   0x82 :: 0x32 :: z64; 83 :: z64; 0x82 :: 0x33 :: z64; 84 :: z64; 85 :: z64; 86 :: z64; 87 :: z64;
   0xFC :: 0x36 :: 1 :: 5 :: z64; 0xFC :: 0x36 :: 1 :: 6 :: z64;
   0xF6 :: 0x36 :: 1 :: 4 :: z64; 0xF6 :: 0x36 :: 1 :: 5 :: z64; 0xF6 :: 0x36 :: 1 :: 6 :: z64; 0xF6 :: 0x36 :: 1 :: 8 :: z64;
   0xF0 :: 0x36 :: 1 :: 0 :: z64; 0xF0 :: 0x36 :: 1 :: 2 :: z64; 0xF0 :: 0x36 :: 1 :: 3 :: z64;
   0xF0 :: 0x36 :: 1 :: 1 :: z64; 0xE8 :: 0x36 :: 1 :: 0 :: z64;
   0xF0 :: 0x36 :: 1 :: 8 :: z64; 0xF0 :: 0x36 :: 1 :: 9 :: z64; 0xF0 :: 0x36 :: 1 :: 10 :: z64; 0xF0 :: 0x36 :: 1 :: 12 :: z64].
Definition bytesb (l : list Z) : bool := forallb (fun b => (0 <=? b) && (b <? 256)) l.
Lemma bytesb_ok l : bytesb l = true -> bytes l.
Proof. intros H. unfold bytesb in H. rewrite forallb_forall in H. apply Forall_forall. intros b Hb. specialize (H b Hb). unfold isbyte. lia. Qed.
Definition reached (q : list string * cond * list Z) : bool :=
  bytesb (snd q) && match access_parse (snd q) with Ok v => match part (fst (fst q)) (to_camelcase_dict v) with Some x => broken (snd (fst q)) x | None => false end | _ => false end.
Theorem C54_limits_reached : forall p c, In (p, c) schema_limits -> exists s v x,
  bytes s /\ access_parse s = Ok v /\ at_path p (to_camelcase_dict v) x /\ ~ holds c x /\ ~ fits library_schema (TT "AccessMessage") (to_camelcase_dict v).
Proof.
  assert (H : forallb reached (combine schema_limits beyond) = true) by (vm_cast_no_check (eq_refl true)).
  assert (L : map fst (combine schema_limits beyond) = schema_limits) by (vm_cast_no_check (eq_refl schema_limits)).
  intros p c Hin. pose proof Hin as Hin0. rewrite <- L in Hin. apply in_map_iff in Hin as ([q s] & E & Hin). cbn [fst] in E. subst q. clear L. rewrite forallb_forall in H. specialize (H _ Hin). clear Hin.
  unfold reached in H. cbn [fst snd] in H. apply andb_true_iff in H as [B H]. apply bytesb_ok in B. destruct (access_parse s) as [v| |] eqn:Ep; try discriminate.
  destruct (part p (to_camelcase_dict v)) as [x|] eqn:Ex; [|discriminate]. apply part_path in Ex. apply broken_ok in H. exists s, v, x. repeat split; try assumption.
  intros F. apply (C54_fits s v B Ep) in F. exact (H (F p c x Hin0 Ex)).
Qed.

(** The messages of the project's own test fit. *)
Lemma path_part p v x : at_path p v x -> part p v = Some x.
Proof. induction 1 as [v|k p d x y E _ IH]; [reflexivity|]. cbn [part]. now rewrite E. Qed.
Definition holdsb (c : cond) (x : val) : bool := match c, x with Small, VInt z => (0 <=? z) && (z <=? 255) | Present, VNone => false | Present, _ => true | _, _ => false end.
Lemma holdsb_ok c x : holdsb c x = true -> holds c x.
Proof.
  destruct c; cbn [holds]; [now destruct x | | destruct x; try discriminate; intros _; discriminate]. destruct x; try discriminate. cbn [holdsb]. intros H. exists z. split; [lia | now left].
Qed.
Definition meetsb (C : conds) (v : val) : bool := forallb (fun q => match part (fst q) v with Some x => holdsb (snd q) x | None => true end) C.
Lemma meetsb_ok C v : meetsb C v = true -> meets C v.
Proof.
  intros H p c x Hin Hx. apply path_part in Hx. unfold meetsb in H. rewrite forallb_forall in H. specialize (H _ Hin). cbn [fst snd] in H. rewrite Hx in H. now apply holdsb_ok.
Qed.
Theorem C54_test_messages : forall s, In s capnp_vectors -> exists v, access_parse s = Ok v /\ fits library_schema (TT "AccessMessage") (to_camelcase_dict v).
Proof.
  assert (H : forallb (fun s => bytesb s && match access_parse s with Ok v => meetsb schema_limits (to_camelcase_dict v) | _ => false end) capnp_vectors = true) by (vm_cast_no_check (eq_refl true)).
  rewrite forallb_forall in H. intros s Hin. specialize (H _ Hin). clear Hin. apply andb_true_iff in H as [B H]. apply bytesb_ok in B. destruct (access_parse s) as [v| |] eqn:E; try discriminate.
  exists v. split; [reflexivity|]. apply (C54_fits s v B E). now apply meetsb_ok.
Qed.

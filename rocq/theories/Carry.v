(** * Carry: what Cap'n Proto gives back, and that building from it gives the same bytes (basis of C55). *)
From Verif Require Import PyVal Bits Float64 FloatX Utf8 Adapters AdapterSpec Construct Size Spec Master Deps Uses Reread P_int AdapterProofs1 AdapterProofs2 AdapterProofs3 AdapterProofs4 P_scale P_log P_keys P_transition Sound SoundAdapt Vocab Access AccessProofs Names P_names Capnp G_capnp P_capnp P_schema Shape P_fits Recode.
From Coq Require Import Lia QArith Qpower Lqa.
Local Open Scope list_scope.
Local Open Scope Z_scope.

(** *** Specification: what pycapnp's to_dict returns for a value that a field took *)
(** round to nearest, 24 bits (float32 without its exponent range) *)
Definition rnd32 (q : Q) : Q :=
  let f (n : Z) (d : positive) := let e := fexp n d + 29 in Qred (inject_Z (fmant n d e) * two_pow e) in
  match Qnum q with
  | Z0 => 0%Q
  | Zpos n => f (Zpos n) (Qden q)
  | Zneg n => Qopp (f (Zpos n) (Qden q))
  end.
Definition single_range (q : Q) : Prop := (q == 0)%Q \/ (two_pow (-126) <= Qabs.Qabs q /\ Qabs.Qabs q < two_pow 127)%Q.
Definition is_int (t : string) : Prop := exists r, In (t, r) int_types.
(** ints, bools, strings and doubles come back as they are; an int field gives an int for a whole float, a float field a
    float for an int; Float32 rounds to 24 bits; Data gives bytes; a dict has the same keys, in any order *)
Inductive returns (sch : schema) : target -> val -> val -> Prop :=
| ret_bool b : returns sch (TT "Bool") (VBool b) (VBool b)
| ret_int t z : is_int t -> returns sch (TT t) (VInt z) (VInt z)
| ret_whole t z q : is_int t -> (q == inject_Z z)%Q -> returns sch (TT t) (VFloat q) (VInt z)
| ret_double z : returns sch (TT "Float64") (VInt z) (VFloat (rnd64 (inject_Z z)))
| ret_double_f q : returns sch (TT "Float64") (VFloat q) (VFloat q)
| ret_single z : single_range (inject_Z z) -> returns sch (TT "Float32") (VInt z) (VFloat (rnd32 (rnd64 (inject_Z z))))
| ret_single_f q : single_range q -> returns sch (TT "Float32") (VFloat q) (VFloat (rnd32 q))
| ret_inf t : In t float_types -> returns sch (TT t) VInf VInf
| ret_ieee4 b : returns sch (TT "Float32") (VIeee 4 b) (VIeee 4 b)
| ret_ieee8 b : returns sch (TT "Float64") (VIeee 8 b) (VIeee 8 b)
| ret_text s : returns sch (TT "Text") (VStr s) (VStr s)
| ret_data s l : utf8_encode s = Some l -> returns sch (TT "Data") (VStr s) (VBytes l)
| ret_list t l l' : Forall2 (returns sch (TT t)) l l' -> returns sch (TT ("List(" ++ t ++ ")")) (VList l) (VList l')
| ret_struct t ls d d' : In (t, Some ls) sch -> NoDup (keys d') -> (forall k, In k (keys d) <-> In k (keys d')) ->
    (forall k x y, In (k, x) d -> In (k, y) d' -> exists tg, member_of ls k tg /\ returns sch tg x y) ->
    returns sch (TT t) (VDict d) (VDict d')
| ret_union ms k tg x y : member_of ms k tg -> returns sch tg x y -> returns sch (TU ms) (VDict [(k, x)]) (VDict [(k, y)]).

(** the values of Float32 fields that lose a step: rounded to 24 bits they are below the multiple of 0.1 s or 5 ms *)
Definition lost_steps : list Z := [7; 9; 13; 14; 18; 19; 21; 23; 26; 28; 31; 33; 36; 38; 41; 42; 43; 46; 47; 51; 52; 56; 57; 61; 62; 63].
Definition lost_delays : list Z :=
  [1; 2; 3; 4; 6; 8; 11; 12; 13; 16; 19; 21; 22; 24; 26; 32; 35; 38; 39; 41; 42; 44; 45; 47; 48; 51; 52; 53; 59; 63; 64; 65; 69; 70; 71; 76;
   77; 78; 82; 83; 84; 88; 89; 90; 94; 95; 96; 101; 102; 103; 104; 105; 106; 117; 118; 126; 127; 128; 129; 130; 131; 138; 139; 140; 141; 142;
   143; 151; 152; 153; 154; 155; 156; 163; 164; 165; 166; 167; 168; 176; 177; 178; 179; 180; 181; 188; 189; 190; 191; 192; 193; 202; 204; 206;
   208; 209; 210; 211; 212; 227; 229; 231; 233; 234; 235; 236; 237; 252; 254].
Definition survives32 (k : string) (x : val) : Prop :=
  (k = "transition_time"%string \/ k = "remaining_time"%string -> forall z, In z lost_steps -> x <> step_value 0 z) /\
  (k = "delay"%string -> forall z, In z lost_delays -> x <> VFloat (rnd64 (z # 200))).
Definition exact32 (v : val) : Prop := forall k x, Reread.entry v k x -> survives32 k x.

(** *** Values and what comes back for them *)
Section Carry.
Variable sch : schema.
Variable u : bool.
Definition nexts (tg : target) (k : string) : list target := flat_map (fun ls => targets_of ls k) (scopes sch tg).
Record st (tg : target) (C : conds) (v x : val) : Prop := {
  st_tidy : tidy keeps v;
  st_lossless : lossless u v;
  st_exact : exact32 v;
  st_meets : meets C (case_val camelcase v);
  st_comes : exists w, returns sch tg (case_val camelcase v) w /\ x = case_val snakecase w }.
Definition at32 (k : option string) (v : val) : Prop := match k with Some k => survives32 k v /\ survives u k v | None => True end.
Definition related (tg : target) (C : conds) (d d' : dict) : Prop :=
  forall k, hidden k = false -> match dget k d with
  | Some v => exists tg1 y, In tg1 (nexts tg (camelcase k)) /\ dget k d' = Some y /\ st tg1 (under (camelcase k) C) v y /\ at32 (Some k) v
  | None => dget k d' = None
  end.

Lemma key_In k d x : In (k, x) d -> In k (keys d).
Proof. intros H. apply in_map_iff. now exists (k, x). Qed.
Lemma keys_In k (d : dict) : In k (keys d) -> exists x, In (k, x) d.
Proof. intros H. apply in_map_iff in H as ([j x] & <- & H). eauto. Qed.
Lemma dget_nodup k d x : NoDup (keys d) -> In (k, x) d -> dget k d = Some x.
Proof. apply nodup_dget. Qed.
Lemma seen_dget case f d k x : NoDup (keys (seen case f d)) -> hidden k = false -> In (k, x) d -> dget (case k) (seen case f d) = Some (f x).
Proof. intros N V H. apply nodup_dget; [exact N|]. unfold seen. apply in_flat_map. exists (k, x). split; [exact H|]. cbn [fst snd]. rewrite V. now left. Qed.
Lemma seen_In case f d j y : In (j, y) (seen case f d) -> exists k x, In (k, x) d /\ hidden k = false /\ j = case k /\ y = f x.
Proof.
  unfold seen. intros H. apply in_flat_map in H as ([k x] & Hk & H). cbn [fst snd] in H. destruct (hidden k) eqn:E; [destruct H|]. destruct H as [H | []]. injection H as <- <-. eauto 6.
Qed.
Lemma seen_nodup case f d : NoDup (keys d) -> (forall k k', In k (keys d) -> In k' (keys d) -> hidden k = false -> hidden k' = false -> case k = case k' -> k = k') -> NoDup (keys (seen case f d)).
Proof.
  induction d as [|[k x] d IH]; intros N Inj; [constructor|]. cbn [keys map fst] in N. apply NoDup_cons_iff in N as [N1 N2]. unfold seen. cbn [flat_map fst snd]. fold (seen case f d).
  assert (IH' : NoDup (keys (seen case f d))) by (apply IH; [exact N2|]; intros; apply Inj; auto; now right).
  destruct (hidden k) eqn:E; cbn [app]; [exact IH'|]. cbn [keys map fst]. constructor; [|exact IH']. intros H. apply seen_keys in H as (k' & Hk & Hv & Eq). apply N1.
  replace k with k'; [exact Hk|]. apply Inj; auto; [now right | now left].
Qed.
Lemma entries_of d : tidy keeps (VDict d) -> NoDup (keys d) /\ (forall k, In k (keys d) -> hidden k = true \/ keeps k) /\ (forall k x, In (k, x) d -> tidy keeps x).
Proof. intros H. inversion H as [? L | | |? H']; subst; [discriminate|]. inversion H'; subst. auto. Qed.
Lemma camel_seen d : tidy keeps (VDict d) -> case_dict camelcase d [] = seen camelcase (case_val camelcase) d /\ NoDup (keys (seen camelcase (case_val camelcase) d)).
Proof.
  intros T. apply entries_of in T as (N & K & _).
  assert (Inj : forall k k', In k (keys d) -> In k' (keys d) -> hidden k = false -> hidden k' = false -> camelcase k = camelcase k' -> k = k').
  { intros k k' Hk Hk' Vk Vk' E. destruct (K _ Hk) as [|(E1 & _)]; [congruence|]. destruct (K _ Hk') as [|(E2 & _)]; [congruence|]. now rewrite <- E1, E, E2. }
  split; [|now apply seen_nodup]. now rewrite case_dict_seen by (auto; intros k _ _ []).
Qed.
(** what comes back for a dict is a dict with the same keys *)
Lemma ret_dict tg e w : returns sch tg (VDict e) w -> NoDup (keys e) -> exists e', w = VDict e' /\ NoDup (keys e') /\ (forall k, In k (keys e) <-> In k (keys e')) /\
  forall k x y, In (k, x) e -> In (k, y) e' -> exists tg1, In tg1 (nexts tg k) /\ returns sch tg1 x y.
Proof.
  intros R N. inversion R as [| | | | | | | | | | | | |t ls d d' H1 H2 H3 H4|ms k tg1 x y H1 H2]; subst.
  - exists d'. repeat (split; [easy|]). intros k x y Hx Hy. destruct (H4 k x y Hx Hy) as (tg1 & M & R1). exists tg1. split; [|exact R1]. apply in_flat_map. exists ls. split; [now apply scopes_in | now apply member_targets].
  - exists [(k, y)]. split; [reflexivity|]. split; [constructor; [intros [] | constructor]|]. split; [reflexivity|]. intros j a b [Ea | []] [Eb | []]. injection Ea as <- <-. injection Eb as <-. exists tg1. split; [|exact H2].
    apply in_flat_map. exists ms. split; [now left | now apply member_targets].
Qed.
Lemma lossless_in d k x : lossless u (VDict d) -> In (k, x) d -> lossless u x /\ survives u k x.
Proof. apply lossless_dict. Qed.
Lemma exact_in d k x : exact32 (VDict d) -> In (k, x) d -> exact32 x /\ survives32 k x.
Proof. intros H Hin. split; [intros j y E; apply H; eapply entry_dict; eassumption | apply H; now constructor]. Qed.
Lemma st_dict tg C d x : st tg C (VDict d) x -> dget "_name" d = None -> exists d', x = VDict d' /\ related tg C d d'.
Proof.
  intros [T L X M (w & R & ->)] N. rewrite case_val_dict, N in R, M. cbn [wrapped] in R, M. destruct (camel_seen d T) as [E Nd]. rewrite E in R, M. clear E.
  destruct (entries_of d T) as (Nk & K & Tk). apply ret_dict in R as (e' & -> & Ne & Kk & Rk); [|exact Nd].
  assert (V : forall j, In j (keys e') -> exists k y, In (k, y) d /\ hidden k = false /\ j = camelcase k /\ snakecase j = k).
  { intros j Hj. apply Kk in Hj. apply seen_keys in Hj as (k & Hk & Hv & ->). destruct (keys_In _ _ Hk) as [y Hy]. destruct (K _ Hk) as [|(E1 & _)]; [congruence|]. eauto 7. }
  rewrite case_val_dict. assert (Nn : dget "_name" e' = None).
  { apply dget_none. intros H. destruct (V _ H) as (k & _ & _ & _ & E & _). pose proof (camel_visible k) as Hv. rewrite <- E in Hv. discriminate. }
  rewrite Nn. cbn [wrapped].
  assert (Inj : forall j j', In j (keys e') -> In j' (keys e') -> hidden j = false -> hidden j' = false -> snakecase j = snakecase j' -> j = j').
  { intros j j' Hj Hj' _ _ E. destruct (V _ Hj) as (k & _ & _ & _ & -> & E1). destruct (V _ Hj') as (k' & _ & _ & _ & -> & E2). congruence. }
  rewrite case_dict_seen by (auto; intros k _ _ []). cbn [app]. eexists. split; [reflexivity|]. intros k Hv.
  assert (Ns : NoDup (keys (seen snakecase (case_val snakecase) e'))) by now apply seen_nodup.
  destruct (dget k d) as [v|] eqn:Ev.
  - apply dget_In in Ev. pose proof (key_In _ _ _ Ev) as Hk. destruct (K _ Hk) as [|(E1 & _)]; [congruence|].
    assert (Hc : In (camelcase k, case_val camelcase v) (seen camelcase (case_val camelcase) d)) by (apply dget_In, seen_dget; auto).
    destruct (keys_In (camelcase k) e') as [b Hb]; [apply Kk; eapply key_In; exact Hc|]. destruct (Rk _ _ _ Hc Hb) as (tg1 & Ht & Rb).
    exists tg1, (case_val snakecase b). split; [exact Ht|]. split.
    + rewrite <- E1 at 1. apply seen_dget; auto. apply camel_visible.
    + split; [constructor|].
      * eauto.
      * now apply (lossless_in d k).
      * now apply (exact_in d k).
      * eapply under_meets; [exact M|]. apply nodup_dget; assumption.
      * eauto.
      * split; [now apply (exact_in d k) | now apply (lossless_in d k)].
  - apply dget_none. intros H. apply seen_keys in H as (j & Hj & _ & ->). destruct (V _ Hj) as (k & y & Hy & _ & -> & E). rewrite E in Ev. rewrite (nodup_dget _ _ _ Nk Hy) in Ev. discriminate.
Qed.
Lemma case_dict_hidden case d k x : hidden k = true -> forall acc, case_dict case (d ++ [(k, x)]) acc = case_dict case d acc.
Proof. intros H. induction d as [|[j y] d IH]; intros acc; cbn [app case_dict]; [now rewrite H | apply IH]. Qed.
Lemma st_named tg C n d x : st tg C (VDict (dset "_name" (VStr (cps n)) d)) x -> dget "_name" d = None -> hidden n = false -> n <> EmptyString ->
  exists tg1 y, In tg1 (nexts tg n) /\ x = VDict [(n, y)] /\ st tg1 (under n C) (VDict d) y.
Proof.
  intros [T L X M (w & R & ->)] N Hn Hne. rewrite dset_fresh in * by exact N. rewrite case_val_dict in R, M.
  assert (En : dget "_name" (d ++ [("_name"%string, VStr (cps n))]) = Some (VStr (cps n))).
  { clear -N. induction d as [|[j y] d IH]; [reflexivity|]. cbn [app dget] in *. destruct (String.eqb "_name" j); [discriminate | auto]. }
  inversion T as [? Lf | | |? T']; subst; [discriminate|]. inversion T' as [? Nk K Tk Tn]; subst. destruct (Tn _ En) as (n' & E1 & (_ & Kn & _)).
  assert (n' = n) by (rewrite <- (ascii_cps n), <- (ascii_cps n'); congruence). subst n'. clear E1.
  rewrite En in R, M. destruct n as [|a n]; [easy|]. rewrite cps_cons in R, M. unfold wrapped in R, M. rewrite <- cps_cons, ascii_cps in R, M. rewrite case_dict_hidden in R, M by reflexivity.
  clear En Tn T' Hne. revert T L X Nk K Tk R M Kn Hn. generalize (String a n). clear a n. intros n T L X Nk K Tk R M Kn Hn.
  assert (T0 : tidy keeps (VDict d)).
  { apply tidy_dict. constructor.
    - unfold keys in *. rewrite map_app in Nk. apply NoDup_remove_1 in Nk. now rewrite app_nil_r in Nk.
    - intros k Hk. apply K. unfold keys. rewrite map_app. apply in_or_app. now left.
    - intros k y Hk. apply (Tk k). apply in_or_app. now left.
    - intros y E. congruence. }
  apply ret_dict in R as (e' & -> & Ne & Kk & Rk); [|constructor; [intros [] | constructor]].
  assert (exists y, e' = [(n, y)]) as [y ->].
  { destruct e' as [|[k1 y1] e']; [destruct (proj1 (Kk n)); now left|]. assert (k1 = n) by (destruct (proj2 (Kk k1)) as [|[]]; [now left | auto]). subst k1.
    destruct e' as [|[k2 y2] e']; [eauto|]. exfalso. assert (k2 = n) by (destruct (proj2 (Kk k2)) as [|[]]; [right; now left | auto]). subst k2.
    cbn [keys map fst] in Ne. inversion_clear Ne as [|? ? N1 _]. apply N1. now left. }
  destruct (Rk n _ _ (or_introl eq_refl) (or_introl eq_refl)) as (tg1 & Ht & R1). exists tg1, (case_val snakecase y). split; [exact Ht|]. split.
  - rewrite case_val_dict. cbn [dget]. destruct (String.eqb_spec "_name" n) as [<-|_]; [discriminate|]. cbn [wrapped case_dict]. rewrite Hn. cbn [dset]. now rewrite Kn.
  - constructor.
    + exact T0.
    + intros k z E. apply L. inversion E as [? ? ? Hin | ? j ? ? ? Hin E' |]; subst; [apply Reread.entry_here, in_or_app; now left | eapply Reread.entry_dict; [apply in_or_app; left; exact Hin | exact E']].
    + intros k z E. apply X. inversion E as [? ? ? Hin | ? j ? ? ? Hin E' |]; subst; [apply Reread.entry_here, in_or_app; now left | eapply Reread.entry_dict; [apply in_or_app; left; exact Hin | exact E']].
    + rewrite case_val_dict, N. cbn [wrapped]. eapply under_meets; [exact M|]. cbn [dget]. now rewrite String.eqb_refl.
    + exists y. split; [|reflexivity]. rewrite case_val_dict, N. exact R1.
Qed.
Lemma append_end a : forall b, (a ++ ")" = b ++ ")")%string -> a = b.
Proof.
  induction a as [|c a IH]; intros b E; destruct b as [|c' b]; [reflexivity | | |]; cbn [append] in E.
  - injection E as _ E. destruct b; discriminate.
  - injection E as _ E. destruct a; discriminate.
  - injection E as -> E. f_equal. now apply IH.
Qed.
Lemma list_type t t1 : ("List(" ++ t ++ ")" = "List(" ++ t1 ++ ")")%string -> t = t1.
Proof. intros E. cbn [append] in E. injection E as E. now apply append_end. Qed.
Definition elem (tg : target) : option string :=
  match tg with TT t => match unlist t with Some t1 => if String.eqb t ("List(" ++ t1 ++ ")") then Some t1 else None | None => None end | TU _ => None end.
Lemma elem_eq tg t1 : elem tg = Some t1 -> tg = TT ("List(" ++ t1 ++ ")").
Proof. destruct tg as [t|]; [|discriminate]. cbn [elem]. destruct (unlist t) as [a|]; [|discriminate]. destruct (String.eqb_spec t ("List(" ++ a ++ ")")) as [->|]; [|discriminate]. congruence. Qed.
Lemma st_items t1 C l x : st (TT ("List(" ++ t1 ++ ")")) C (VList l) x -> exists l', x = VList l' /\ Forall2 (st (TT t1) []) l l'.
Proof.
  intros [T L X M (w & R & ->)]. change (case_val camelcase (VList l)) with (VList (map (case_val camelcase) l)) in R.
  assert (Hl : forall y, In y l -> tidy keeps y) by (inversion T; subst; [discriminate | assumption]).
  assert (exists l', w = VList l' /\ Forall2 (returns sch (TT t1)) (map (case_val camelcase) l) l') as (l' & -> & H).
  { remember (TT ("List(" ++ t1 ++ ")")) as tg eqn:Et. clear -R Et. inversion R as [| | | | | | | | | | | |t l1 l' H| |]; subst. injection H0 as Et. apply append_end in Et as ->. eauto. }
  exists (map (case_val snakecase) l'). split; [reflexivity|]. clear R M T. revert l' H. induction l as [|v l IH]; intros l' H; inversion H as [|a b cl l'' Hab H']; subst; cbn [map]; constructor.
  - constructor; [apply Hl; now left | | | intros p c y [] | eauto].
    + eapply lossless_list; [exact L | now left].
    + intros k z E. apply X. eapply Reread.entry_list; [now left | exact E].
  - apply IH; [| | |exact H'].
    + intros k z E. inversion E as [| |? y ? ? Hin E']; subst. apply L. eapply Reread.entry_list; [right; exact Hin | exact E'].
    + intros k z E. inversion E as [| |? y ? ? Hin E']; subst. apply X. eapply Reread.entry_list; [right; exact Hin | exact E'].
    + intros y Hy. apply Hl. now right.
Qed.
(** *** Leaves *)
Definition intty (tg : target) : bool := match tg with TT t => match aget t int_types with Some _ => true | None => false end | TU _ => false end.
Lemma st_int tg C z x : intty tg = true -> st tg C (VInt z) x -> x = VInt z.
Proof.
  intros I [_ _ _ _ (w & R & ->)]. change (case_val camelcase (VInt z)) with (VInt z) in R. inversion R; subst; try reflexivity; discriminate.
Qed.
Lemma st_enum tg C n z x : intty tg = true -> st tg C (VEnum n z) x -> x = VInt z.
Proof.
  intros I [_ _ _ _ (w & R & ->)]. change (case_val camelcase (VEnum n z)) with (VInt z) in R. inversion R; subst; try reflexivity; discriminate.
Qed.
Lemma st_num tg C v z x : intty tg = true -> v = VInt z \/ (exists n, v = VEnum n z) -> st tg C v x -> x = VInt z.
Proof. intros I [-> | (n & ->)]; [now apply st_int | now apply st_enum]. Qed.
Lemma st_bool tg C b x : st tg C (VBool b) x -> x = VBool b.
Proof. intros [_ _ _ _ (w & R & ->)]. change (case_val camelcase (VBool b)) with (VBool b) in R. now inversion R. Qed.
Lemma st_ieee tg C n b x : st tg C (VIeee n b) x -> x = VIeee n b.
Proof. intros [_ _ _ _ (w & R & ->)]. change (case_val camelcase (VIeee n b)) with (VIeee n b) in R. now inversion R. Qed.
Definition textty (tg : target) : bool := match tg with TT t => negb (String.eqb t "Data") | TU _ => true end.
Lemma st_str tg C s x : textty tg = true -> st tg C (VStr s) x -> x = VStr s.
Proof. intros I [_ _ _ _ (w & R & ->)]. change (case_val camelcase (VStr s)) with (VStr s) in R. inversion R; subst; [reflexivity | discriminate]. Qed.
Lemma st_double C v x : st (TT "Float64") C v x -> (forall z, v = VInt z -> x = VFloat (rnd64 (inject_Z z))) /\ (forall q, v = VFloat q -> x = VFloat q).
Proof.
  intros [_ _ _ _ (w & R & ->)]. split; intros z ->.
  - change (case_val camelcase (VInt z)) with (VInt z) in R. inversion R as [|t z' I| | | | | | | | | | | | |]; subst; [|reflexivity]. destruct I as ((lo & hi) & I). repeat (destruct I as [I|I]; [discriminate|]). destruct I.
  - change (case_val camelcase (VFloat z)) with (VFloat z) in R. inversion R as [| |t z' q I| | | | | | | | | | | |]; subst; [|reflexivity]. destruct I as ((lo & hi) & I). repeat (destruct I as [I|I]; [discriminate|]). destruct I.
Qed.
Lemma st_single C v x : st (TT "Float32") C v x -> (forall z, v = VInt z -> x = VFloat (rnd32 (rnd64 (inject_Z z)))) /\ (forall q, v = VFloat q -> x = VFloat (rnd32 q)).
Proof.
  intros [_ _ _ _ (w & R & ->)]. split; intros z ->.
  - change (case_val camelcase (VInt z)) with (VInt z) in R. inversion R as [|t z' I| | | | | | | | | | | | |]; subst; [|reflexivity]. destruct I as ((lo & hi) & I). repeat (destruct I as [I|I]; [discriminate|]). destruct I.
  - change (case_val camelcase (VFloat z)) with (VFloat z) in R. inversion R as [| |t z' q I| | | | | | | | | | | |]; subst; [|reflexivity]. destruct I as ((lo & hi) & I). repeat (destruct I as [I|I]; [discriminate|]). destruct I.
Qed.
(** *** Adapters *)
Definition single_of (v : val) : val := match v with VInt z => VFloat (rnd32 (rnd64 (inject_Z z))) | VFloat q => VFloat (rnd32 q) | _ => v end.
Definition enc_eqb (a b : res val) : bool :=
  match a, b with
  | Ok (VInt x), Ok (VInt y) => x =? y
  | Ok (VDict [(k1, VInt x1); (k2, VInt x2)]), Ok (VDict [(j1, VInt y1); (j2, VInt y2)]) => String.eqb k1 j1 && String.eqb k2 j2 && (x1 =? y1) && (x2 =? y2)
  | _, _ => false
  end.
Lemma enc_eqb_ok a b : enc_eqb a b = true -> a = b.
Proof.
  unfold enc_eqb. intros H. destruct a as [a|a|]; try discriminate. destruct a as [| |a| | | | | | | |a| | | | |]; try discriminate.
  - destruct b as [b|b|]; try discriminate. destruct b as [| |b| | | | | | | |b| | | | |]; try discriminate. apply Z.eqb_eq in H. congruence.
  - destruct a as [|[? [| |x1| | | | | | | | | | | | |]] [|[? [| |x2| | | | | | | | | | | | |]] [|]]]; try discriminate. destruct b as [b|b|]; try discriminate.
    destruct b as [| |b| | | | | | | |b| | | | |]; try discriminate. destruct b as [|[? [| |y1| | | | | | | | | | | | |]] [|[? [| |y2| | | | | | | | | | | | |]] [|]]]; try discriminate.
    apply andb_prop in H as [H H4]. apply andb_prop in H as [H H3]. apply andb_prop in H as [H H2]. apply String.eqb_eq in H, H2. apply Z.eqb_eq in H3, H4. congruence.
Qed.
Lemma single_steps : forallb (fun un => forallb (fun o => existsb (Z.eqb o) lost_steps || ((o mod 64 =? 63) && negb un) || enc_eqb (encode (ATransition un) (step_value (o / 64) (o mod 64))) (encode (ATransition un) (single_of (step_value (o / 64) (o mod 64))))) (upto 256)) [false; true] = true.
Proof. vm_compute. reflexivity. Qed.
Lemma single_delays : forallb (fun z => existsb (Z.eqb z) lost_delays || enc_eqb (encode ADelay (VFloat (rnd64 (z # 200)))) (encode ADelay (VFloat (rnd32 (rnd64 (z # 200)))))) (upto 256) = true.
Proof. vm_compute. reflexivity. Qed.
Definition u24 : Q := 1 # (2 ^ 24).
Lemma fmant_err24 n d e : 0 < n -> e = fexp n d + 29 -> (Qabs.Qabs (inject_Z (fmant n d e) * two_pow e - Qmake n d) <= Qmake n d * u24)%Q.
Proof.
  intros Hn ->. pose proof (fexp_lower n d Hn) as L. pose proof (nu_de_add (fexp n d) 29) as A. change (nu 29) with (2 ^ 29) in A. change (de 29) with 1 in A.
  pose proof (nu_pos (fexp n d)) as P1. pose proof (de_pos (fexp n d)) as P2. set (e := fexp n d + 29) in *.
  pose proof (nu_pos e) as Hnu. pose proof (de_pos e) as Hde.
  assert (L' : Zpos d * nu e * 2 ^ 23 <= n * de e).
  { assert (E : (Zpos d * nu (fexp n d) * 2 ^ 52) * de e <= n * de (fexp n d) * de e) by (apply Z.mul_le_mono_nonneg_r; lia).
    replace (Zpos d * nu (fexp n d) * 2 ^ 52 * de e) with (Zpos d * 2 ^ 23 * (nu (fexp n d) * 2 ^ 29 * de e)) in E by ring. rewrite <- A in E.
    apply (Z.mul_le_mono_pos_r _ _ (de (fexp n d))); [exact P2|]. lia. }
  clear L A P1 P2. unfold fmant. pose proof (rne_bound (n * de e) (Zpos d * nu e) ltac:(lia)) as B.
  set (m := rne (n * de e) (Zpos d * nu e)) in *. clearbody e.
  apply (proj2 (Qabs.Qabs_Qle_condition _ _)).
  unfold u24, two_pow, inject_Z, Qle, Qminus, Qplus, Qopp, Qmult; simpl Qnum; simpl Qden.
  rewrite !Pos2Z.inj_mul, !Z2Pos.id by lia.
  change (Z.pos (2 ^ 24)) with (2 * 2 ^ 23).
  assert (B1 : (2 * 2 ^ 23) * Z.abs (n * de e - m * (Zpos d * nu e)) <= n * de e) by nia.
  set (D := Zpos d) in *. assert (0 < D) by (unfold D; lia).
  clearbody m D. clear L' B.
  assert (X : Z.abs (n * de e - m * (D * nu e)) * (2 * 2 ^ 23) * D <= n * de e * D) by nia.
  split; nia.
Qed.
Lemma rnd32_err q : (0 < q)%Q -> (Qabs.Qabs (rnd32 q - q) <= q * u24)%Q.
Proof.
  intros Hq. destruct q as [[|n|n] d]; [inversion Hq| |inversion Hq]. unfold rnd32; cbn [Qnum Qden]. rewrite Qred_correct. apply fmant_err24; [lia | reflexivity].
Qed.
Lemma single_near z : 1 <= z <= 255 -> near_exp8 (rnd32 (exp8_float z)) z.
Proof.
  intros Hz. pose proof (exp8_float_close z ltac:(lia)) as C. apply Qabs.Qabs_Qle_condition in C as [C1 C2].
  assert (L : (24 # 10000 <= e11 (z - 64))%Q).
  { apply Qle_trans with (e11 (-63)); [apply Qleb_spec; vm_compute; reflexivity|apply e11_mono; lia]. }
  assert (E1 : (e11 (2 * (z - 64) - 1) == e11 (z - 64) * e11 (z - 64) * (10 # 11))%Q).
  { replace (2 * (z - 64) - 1) with ((z - 64) + (z - 64) + -1) by lia. unfold e11. rewrite !Qpower_plus by discriminate. reflexivity. }
  assert (E2 : (e11 (2 * (z - 64) + 1) == e11 (z - 64) * e11 (z - 64) * (11 # 10))%Q).
  { unfold e11. replace (2 * (z - 64) + 1) with ((z - 64) + (z - 64) + 1) by lia. rewrite !Qpower_plus by discriminate. reflexivity. }
  unfold near_exp8. fold (e11 (2 * (z - 64) - 1)) (e11 (2 * (z - 64) + 1)). rewrite E1, E2. set (t := e11 (z - 64)) in *. set (y := exp8_float z) in *.
  assert (Y1 : (t * (979 # 1000) <= y)%Q) by lra. assert (Y2 : (y <= t * (1021 # 1000))%Q) by lra.
  assert (Hy : (0 < y)%Q) by lra. pose proof (rnd32_err y Hy) as R. apply Qabs.Qabs_Qle_condition in R as [R1 R2].
  assert (Hu : (u24 <= 1 # 1000000)%Q) by (vm_compute; discriminate). assert (Hyu : (y * u24 <= y * (1 # 1000000))%Q) by (apply Qmult_le_l; assumption).
  set (x := rnd32 y) in *. set (yu := (y * u24)%Q) in *. clearbody x yu y t. clear C1 C2 E1 E2.
  assert (X1 : (t * (978 # 1000) <= x)%Q) by lra. assert (X2 : (x <= t * (1022 # 1000))%Q) by lra.
  split; [lra|]. split.
  - apply Qle_trans with ((t * (978 # 1000)) * (t * (978 # 1000)))%Q; [|apply Qmult_le_compat_nonneg; split; lra].
    setoid_replace (t * (978 # 1000) * (t * (978 # 1000)))%Q with (t * t * (956484 # 1000000))%Q by ring. assert (0 <= t * t)%Q by (apply Qmult_le_0_compat; lra). lra.
  - apply Qle_lt_trans with ((t * (1022 # 1000)) * (t * (1022 # 1000)))%Q; [apply Qmult_le_compat_nonneg; split; lra|].
    setoid_replace (t * (1022 # 1000) * (t * (1022 # 1000)))%Q with (t * t * (1044484 # 1000000))%Q by ring.
    assert (0 < t * t)%Q by (apply Qmult_lt_0_compat; lra). lra.
Qed.
Lemma whole_rows : forallb (fun p => match p with (b, _, r, _, _, _, _) => match r with RInt k => (0 <? k) && (256 ^ b * k <=? 2 ^ 53) | RFloat _ => true end end) scale_table = true.
Proof. vm_compute. reflexivity. Qed.
End Carry.

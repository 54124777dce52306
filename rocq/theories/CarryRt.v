(** * CarryRt: what Cap'n Proto gives back for a decoded value builds like the value (basis of C55). *)
From Verif Require Import PyVal Bits Float64 FloatX Utf8 Adapters AdapterSpec Construct Size Spec Master Deps Uses Reread P_int P_layout Sound SoundAdapt Vocab Access AccessProofs Names P_names Capnp G_capnp P_capnp P_schema Shape P_fits Recode Carry CarryAdapt CarryCheck AdapterProofs1 AdapterProofs4 Conform.
From Coq Require Import Lia.
Local Open Scope list_scope.
Local Open Scope Z_scope.

Section CarryRt.
Variable sch : schema.
Variable u : bool.
Local Notation nexts := (Carry.nexts sch).
Local Notation st := (Carry.st sch u).
Local Notation at32 := (Carry.at32 u).
Local Notation related := (Carry.related sch u).
Local Notation rt := (CarryCheck.rt sch).
Local Notation rtf := (CarryCheck.rtf sch).
Local Notation rtk := (CarryCheck.rtk sch).
Local Notation rtal := (CarryCheck.rtal sch).
Local Notation snd_ok := (Sound.snd_ok (adok u)).
Local Notation sndf_ok := (Sound.sndf_ok (adok u)).
Local Notation sndk_ok := (Sound.sndk_ok (adok u)).
Local Notation snda_ok := (Sound.snda_ok (adok u)).

Lemma absent_no tg C v x : here Absent C = true -> st tg C v x -> False.
Proof. intros H S. exact (here_meets _ _ _ H (st_meets _ _ _ _ _ _ S)). Qed.
Lemma nil_b_nil {A} (l : list A) : nil_b l = true -> l = [].
Proof. destruct l; [reflexivity|discriminate]. Qed.

Definition Rc (c : con) : Prop := forall m te dl k ctx s v r tg C, wf m c = true -> snd_ok te dl k c = true -> typed te ctx ctx -> units m s -> parse c ctx s = Ok (v, r) -> rt c tg C = true ->
  (chain c = false -> forall x, st tg C v x -> at32 k v -> rc c v x) /\
  (chain c = true -> forall d d2 d', v = VDict d -> ext d d2 -> related tg C d2 d' -> rc c (VDict d2) (VDict d')).
Definition Rf (fs : fields) : Prop := forall m te dl obj s d r d2 d' tg C, wff m fs = true -> sndf_ok te dl fs = true -> typed te obj obj -> units m s ->
  parse_fields fs obj s = Ok (d, r) -> Master.distinct (Sound.names fs) = true -> fresh fs obj -> rtf fs tg C = true -> ext d d2 -> related tg C d2 d' -> rcf fs d2 d'.
Definition Rk (cs : cases) : Prop := forall m te dl z ctx s v r n c tg C tg1 x, wfk m cs = true -> sndk_ok te dl cs = true -> typed te ctx ctx -> units m s ->
  parse_case z cs ctx s = Ok (v, r) -> find_case z cs = Some (n, c) ->
  rtk cs tg C = true -> In tg1 (nexts tg (camelcase (lower n))) -> st tg1 (under (camelcase (lower n)) C) v x -> rck z cs v x.
Definition Ra (l : alts) : Prop := forall m te dl prev ctx s v r tg C x, wfa m l = true -> snda_ok te dl prev l = true -> typed te ctx ctx -> units m s ->
  parse_alts l ctx s = Ok (v, r) -> rtal prev l tg C = true -> st tg C v x -> rca l v x /\ forall cj, In cj prev -> fails cj v /\ fails cj x.

(** a chain decodes to a dict without a name *)
Lemma chain_ctx c : chain c = true -> forall ctx s, parse c ctx s = parse c [] s.
Proof.
  induction c; intros H ctx s; try discriminate; cbn [chain] in H; cbn [parse]; [reflexivity|now rewrite IHc|]. destruct (take n s) as [[a r]| |]; cbn [bind]; try reflexivity. now rewrite IHc.
Qed.
Lemma unnamed_no c m ctx s v r : chain c = true -> unnamed c = true -> wf m c = true -> units m s -> parse c ctx s = Ok (v, r) -> exists d, v = VDict d /\ dget "_name" d = None.
Proof.
  intros Hc Hu W U P. rewrite chain_ctx in P by exact Hc. pose proof (proj1 parse_shape_mut c m [] [] s v r W U has_nil P) as H. unfold unnamed in Hu.
  destruct (sh [] c) as [| | | | | | | | | | | | | |n f| |]; try discriminate. destruct n; [discriminate|]. inversion H; subst. eexists. split; [reflexivity|]. eapply name_none. exact H.
Qed.
Lemma rt_unnamed c tg C : chain c = true -> rt c tg C = true -> unnamed c = true.
Proof.
  induction c; intros E R; try discriminate; cbn [chain] in E; cbn in R.
  - andb R. assumption.
  - unfold unnamed in *. cbn [sh]. now apply IHc.
  - unfold unnamed in *. cbn [sh]. now apply IHc.
Qed.
(** what the induction gives, for every declaration *)
Lemma use_Rc c m te dl k ctx s v r tg C x : Rc c -> wf m c = true -> snd_ok te dl k c = true -> typed te ctx ctx -> units m s -> parse c ctx s = Ok (v, r) -> rt c tg C = true -> st tg C v x -> at32 k v -> rc c v x.
Proof.
  intros IH W S T U P R St K. destruct (IH m te dl k ctx s v r tg C W S T U P R) as [H1 H2]. destruct (chain c) eqn:E; [|now apply H1].
  destruct (unnamed_no _ _ _ _ _ _ E (rt_unnamed _ _ _ E R) W U P) as (d & -> & N). apply st_dict in St as (d' & -> & Rel); [|exact N]. eapply H2; [reflexivity|reflexivity|apply ext_refl|exact Rel].
Qed.
Lemma use_opt c m te dl k ctx s v r tg C x : Rc c -> wf m c = true -> snd_ok te dl k c = true -> typed te ctx ctx -> units m s -> parse c ctx s = Ok (v, r) -> (here Absent C || rt c tg C)%bool = true -> st tg C v x -> at32 k v -> rc c v x.
Proof. intros IH W S T U P R St K. apply orb_prop in R as [R|R]; [exfalso; eapply absent_no; eauto|]. eapply use_Rc; eauto. Qed.
Lemma list_rc c m te dl ctx l l' t : Rc c -> wf m c = true -> snd_ok te dl None c = true -> typed te ctx ctx -> Forall (fun v => exists s r, units m s /\ parse c ctx s = Ok (v, r)) l -> rt c (TT t) [] = true ->
  Forall2 (st (TT t) []) l l' -> Forall2 (rc c) l l'.
Proof.
  intros IH W S T F R H. induction H as [|a b l l' Hab H IHl]; [constructor|]. inversion_clear F as [|? ? (s & r & U & P) F']. constructor; [|now apply IHl]. eapply use_Rc; eauto. exact Logic.I.
Qed.

(** *** Fields other fields refer to *)
Lemma st_listval tg C l x : st tg C (VList l) x -> exists l', x = VList l' /\ length l = length l'.
Proof.
  intros [_ _ _ _ (w & R & ->)]. cbn [case_val] in R. inversion R; subst. match goal with F : Forall2 _ _ _ |- _ => pose proof (f2_len _ _ _ F) as E end.
  rewrite map_length in E. cbn [case_val]. eexists. split; [reflexivity|]. now rewrite map_length.
Qed.
Lemma rval_list tg C l x : st tg C (VList l) x -> rval (VList l) x.
Proof. intros S. apply st_listval in S as (l' & -> & E). repeat split; cbn; [|now rewrite E]. now destruct l, l'. Qed.
Lemma st_one tg C k v x : st tg C (VDict [(k, v)]) x -> hidden k = false -> exists tg1 y, x = VDict [(k, y)] /\ In tg1 (nexts tg (camelcase k)) /\ st tg1 (under (camelcase k) C) v y.
Proof.
  intros S Hk. pose proof S as [T L X M (w & R & E)]. assert (N : dget "_name" [(k, v)] = None). { cbn [dget]. destruct (String.eqb_spec "_name" k); [subst; discriminate|reflexivity]. }
  apply st_dict in S as (d' & -> & Rel); [|exact N]. specialize (Rel k Hk). cbn [dget] in Rel. rewrite String.eqb_refl in Rel. destruct Rel as (tg1 & y & Hin & G & Sy & _).
  exists tg1, y. split; [|auto]. rewrite case_val_dict, N in R. cbn [wrapped case_dict] in R. rewrite Hk in R. cbn [case_dict dset] in R.
  apply ret_dict in R as (e' & -> & Ne & Kk & _); [|constructor; [intros []|constructor]]. cbn [keys map fst In] in Kk.
  assert (exists b, e' = [(camelcase k, b)]) as (b & ->).
  { destruct e' as [|[j b] e']; [exfalso; apply (proj1 (Kk (camelcase k))); now left|]. assert (j = camelcase k) as -> by (destruct (proj2 (Kk j)) as [|[]]; [now left|auto]).
    destruct e' as [|[j b'] e']; [eauto|]. exfalso. cbn [map fst] in Ne. apply NoDup_cons_iff in Ne as [Ne _]. apply Ne. left. destruct (proj2 (Kk j)) as [|[]]; [right; now left|auto]. }
  rewrite case_val_dict in E. assert (Hc := camel_visible k). cbn [dget] in E. destruct (String.eqb_spec "_name" (camelcase k)) as [Ek|]; [rewrite <- Ek in Hc; discriminate|].
  cbn [wrapped case_dict] in E. rewrite Hc in E. cbn [case_dict dset] in E. injection E as ->. f_equal. cbn [dget] in G.
  destruct (String.eqb_spec k (snakecase (camelcase k))) as [<-|]; [now injection G as ->|discriminate].
Qed.
Lemma rval_kind kd tg C v x : has_kind kd v -> intty tg = true -> st tg C v x -> rval v x.
Proof.
  intros K I S. assert (exists z, v = VInt z \/ exists n, v = VEnum n z) as (z & Hv).
  { destruct kd; [destruct K as (z & ->)|destruct K as (n & z & -> & _)|destruct K as (z & E & B)]; eauto. destruct (by_value t z) as [y|] eqn:Eb; [|eauto]. subst v. destruct (by_value_enum _ _ _ Eb) as (n & -> & _). eauto. }
  rewrite (st_num sch u tg C v z x I Hv S). destruct Hv as [-> |(n & ->)]; now repeat split.
Qed.
Lemma fcon_parse j : forall fs te dl m obj s d r c, fcon j fs = Some c -> wff m fs = true -> sndf_ok te dl fs = true -> Master.distinct (Sound.names fs) = true -> fresh fs obj -> typed te obj obj -> units m s ->
  parse_fields fs obj s = Ok (d, r) ->
  exists te' dl' ctx s1 v r1 k', parse c ctx s1 = Ok (v, r1) /\ dget j d = Some v /\ typed te' ctx ctx /\ snd_ok te' dl' k' c = true.
Proof.
  induction fs as [|k c fs IHfs|k c dv fs IHfs|k e c fs IHfs|k n fs IHfs|k fs IHfs|n b ? fs IHfs]; intros te dl m obj s d r c0 F W S D Fr T U H; cbn [fcon] in F; try discriminate; cbn in S; cbn [wff] in W; cbn [Sound.names Master.distinct] in D; unfold fresh in Fr; cbn [Sound.names] in Fr;
    cbn [parse_fields] in H; apply bind_ok in H as ([v r0] & P & H).
  - andb S; andb W; andb D. pose proof (fresh_next k v fs obj ltac:(now apply negb_true_iff in D) Fr) as Fr'.
    destruct (String.eqb_spec j k) as [-> |Hn].
    + injection F as ->. exists te, (match fs with FNil => dl | _ => true end), obj, s, v, r0, (Some k). split; [exact P|]. split; [|auto].
      rewrite (Sound.kept (adok u) _ _ _ _ _ _ _ _ k W0 S0 H); [apply dget_dset_eq|now apply vis_hidden|now apply smem_not].
    + eapply (IHfs _ _ _ _ _ _ _ _ F W0 S0 D0 Fr'); [| |exact H]; [|now apply (parse_units _ _ _ _ _ _ W1 U P)].
      destruct (kind_of c) as [kd|] eqn:Kc; cbn [tadd]; [apply typed_add; auto; [now apply vis_hidden|apply Fr; now left|eapply kind_parse; eauto] | apply typed_skip; auto; apply Fr; now left].
  - andb S; andb W; andb D. pose proof (fresh_next k v fs obj ltac:(now apply negb_true_iff in D) Fr) as Fr'.
    destruct (String.eqb_spec j k) as [-> |Hn].
    + injection F as ->. exists te, (match fs with FNil => dl | _ => true end), obj, s, v, r0, (Some k). split; [exact P|]. split; [|auto].
      rewrite (Sound.kept (adok u) _ _ _ _ _ _ _ _ k W0 S0 H); [apply dget_dset_eq|now apply vis_hidden|now apply smem_not].
    + eapply (IHfs _ _ _ _ _ _ _ _ F W0 S0 D0 Fr'); [| |exact H]; [|now apply (parse_units _ _ _ _ _ _ W1 U P)].
      destruct (kind_of c) as [[| |]|] eqn:Kc; try discriminate. apply typed_add; auto; [now apply vis_hidden|apply Fr; now left|eapply kind_parse; eauto].
  - andb S. destruct (units_take _ _ _ _ _ P U) as [_ U0]. destruct k as [k|].
    + eapply (IHfs _ _ _ _ _ _ _ _ F W S0 D); [| |exact U0|exact H].
      * intros i Hi. rewrite dget_dset_neq; [now apply Fr|]. intros ->. pose proof (names_vis _ _ W _ Hi). congruence.
      * intros i kd E. destruct (T _ _ E) as (Hj & x & G1 & G2 & G3). split; [exact Hj|]. exists x. rewrite dget_dset_neq; [auto|]. intros ->. congruence.
    + eapply (IHfs _ _ _ _ _ _ _ _ F W S0 D Fr T U0 H).
Qed.
Lemma listcases_parse cs : forall z ctx s v r, listcases cs = true -> parse_case z cs ctx s = Ok (v, r) -> v = VNone \/ exists l, v = VList l.
Proof.
  induction cs as [|n w c cs IH]; intros z ctx s v r H P; cbn [listcases parse_case] in *; [injection P as <- _; now left|]. andb H. destruct (z =? w); [|eapply IH; eauto].
  right. destruct c; try discriminate; cbn [parse] in P.
  - destruct s; [discriminate|]. apply bind_ok in P as ([l r0] & _ & E). injection E as <- _. eauto.
  - apply bind_ok in P as (n1 & _ & P). destruct (n1 <? 0); [discriminate|]. apply bind_ok in P as ([l r0] & _ & E). injection E as <- _. eauto.
  - apply bind_ok in P as ([l r0] & _ & E). injection E as <- _. eauto.
Qed.
Lemma listcases_vis cs z n c : listcases cs = true -> find_case z cs = Some (n, c) -> vis (lower n) = true.
Proof. induction cs as [|n' w c' cs IH]; cbn [listcases find_case]; intros H F; [discriminate|]. andb H. destruct (z =? w); [injection F as <- _; assumption|auto]. Qed.
Lemma dep_rval fs te dl m obj s d r d2 d' tg C k : wff m fs = true -> sndf_ok te dl fs = true -> Master.distinct (Sound.names fs) = true -> fresh fs obj -> typed te obj obj -> units m s ->
  parse_fields fs obj s = Ok (d, r) -> ext d d2 -> related tg C d2 d' -> depb sch fs tg k = true ->
  hidden k = false /\ match dget k d2, dget k d' with Some x, Some y => rval x y | None, None => True | _, _ => False end.
Proof.
  intros W S D Fr T U P X R H. unfold depb in H. andb H. apply vis_hidden in H. split; [exact H|]. destruct (fcon k fs) as [c|] eqn:F; [|discriminate].
  destruct (fcon_parse k fs te dl m obj s d r c F W S D Fr T U P) as (te' & dl' & ctx & s1 & v & r1 & k' & P1 & G & T1 & S1). specialize (R k H). rewrite (X _ _ H G) in *.
  destruct R as (tg1 & y & Hin & -> & St & _). destruct (kind_of c) as [kd|] eqn:K.
  - rewrite forallb_forall in H0. apply (rval_kind kd tg1 _ v y (kind_parse _ _ _ _ _ _ K P1) (H0 _ Hin) St).
  - destruct c as [| | | | | | | | | | | |e0 c0| | | |c0| | | | | | | | | | | | ]; try discriminate.
    + cbn [parse] in P1. apply bind_ok in P1 as (n & _ & P1). destruct (n <? 0); [discriminate|]. apply bind_ok in P1 as ([l r0] & _ & E). injection E as <- _. eapply rval_list; eauto.
    + destruct c0 as [| | | | | | | | | | | | | | | | | | | | | |j cs| | | | | | ]; try discriminate. apply andb_prop in H0 as [Hl _]. cbn in S1. destruct (tget j te') as [[|t|t]|] eqn:Ej; try discriminate. andb S1.
      destruct (T1 _ _ Ej) as (_ & xv & G1 & _ & (n & z & -> & B)). destruct (enum_cases_find _ _ _ _ S1 B) as (c1 & Fc).
      cbn [parse] in P1. destruct (bits2bytes s1) as [bs lo]. apply bind_ok in P1 as ([w r0] & P1 & E). injection E as <- _. unfold dgetr in P1. rewrite G1 in P1. cbn [bind] in P1.
      apply bind_ok in P1 as ([w1 r2] & P1 & E). injection E as <- _. pose proof (vis_hidden _ (listcases_vis _ _ _ _ Hl Fc)) as Hn.
      destruct (st_one _ _ _ _ _ St Hn) as (tg2 & y2 & -> & _ & St2). destruct (listcases_parse _ _ _ _ _ _ Hl P1) as [-> |(l & ->)].
      * destruct St2 as [_ _ _ _ (w' & R & _)]. cbn [case_val] in R. inversion R.
      * destruct (st_listval _ _ _ _ St2) as (l' & -> & E). repeat split; cbn; rewrite ?E; reflexivity.
Qed.

Lemma related_ext tg C d d2 d' : (forall k, hidden k = false -> dget k d2 = dget k d) -> related tg C d d' -> related tg C d2 d'.
Proof. intros E R k Hk. rewrite E by exact Hk. now apply R. Qed.
Lemma field_rc m te dl obj s v r k c d2 d' tg C : Rc c -> wf m c = true -> snd_ok te dl (Some k) c = true -> typed te obj obj -> units m s -> parse c obj s = Ok (v, r) -> hidden k = false ->
  forallb (fun tg1 => here Absent (under (camelcase k) C) || rt c tg1 (under (camelcase k) C)) (nexts tg (camelcase k)) = true -> dget k d2 = Some v -> related tg C d2 d' ->
  exists b, dget k d' = Some b /\ rc c v b.
Proof.
  intros IH W S T U P Hk R G Rel. specialize (Rel k Hk). rewrite G in Rel. destruct Rel as (tg1 & y & Hin & G' & St & K). exists y. split; [exact G'|].
  rewrite forallb_forall in R. specialize (R _ Hin). eapply use_opt; eauto.
Qed.
Lemma st_none tg C x : st tg C VNone x -> False.
Proof. intros [_ _ _ _ (w & R & _)]. cbn [case_val] in R. inversion R. Qed.
Lemma works_of c m te dl k ctx s v r tg C x : wf m c = true -> snd_ok te dl k c = true -> typed te ctx ctx -> units m s -> parse c ctx s = Ok (v, r) -> deps c = [] -> atk u k v -> st tg C v x -> works c v.
Proof.
  intros W S T U P D K [_ L _ _ _] ctx'. destruct (proj1 (sound_mut u (adok u) (adapters_sound u)) c m te dl k ctx s v r ctx ctx W S U P T (ext_refl _) v (or_introl eq_refl) L K) as (v' & Cf & _).
  destruct (proj1 (roundtrip_mut A_spec adapters_ok) c m dl ctx ctx v v' W Cf) as (b & E & _). exists b. rewrite <- E. apply build_agree. rewrite D. apply agree_nil.
Qed.
Lemma find_none z cs ctx s v r a b : find_case z cs = None -> parse_case z cs ctx s = Ok (v, r) -> rck z cs a b.
Proof. induction cs as [|n w c cs IH]; cbn [find_case parse_case rck]; intros F P; [exact Logic.I|]. destruct (z =? w); [discriminate|auto]. Qed.
Lemma rck_find z cs a b : find_case z cs = None -> rck z cs a b.
Proof. induction cs as [|n w c cs IH]; cbn [find_case rck]; intros F; [exact Logic.I|]. destruct (z =? w); [discriminate|auto]. Qed.
Lemma case_keys_in cs z n c : find_case z cs = Some (n, c) -> In (lower n) (case_keys cs).
Proof. induction cs as [|n' w c' cs IH]; cbn [find_case case_keys]; intros F; [discriminate|]. destruct (z =? w); [injection F as <- _; now left|right; auto]. Qed.
Lemma case_keys_inj cs z z' n n' c c' : Master.distinct (case_keys cs) = true -> find_case z cs = Some (n, c) -> find_case z' cs = Some (n', c') -> lower n = lower n' -> z = z'.
Proof.
  induction cs as [|n0 w c0 cs IH]; cbn [find_case case_keys Master.distinct]; intros D F F' E; [discriminate|]. apply andb_prop in D as [D1 D2]. apply negb_true_iff in D1.
  destruct (Z.eqb_spec z w) as [-> |], (Z.eqb_spec z' w) as [-> |]; [reflexivity| | |auto].
  - injection F as -> _. apply case_keys_in in F'. rewrite <- E in F'. now apply existsb_string in D1.
  - injection F' as -> _. apply case_keys_in in F. rewrite E in F. now apply existsb_string in D1.
Qed.
(** *** The value of a sensor setting *)
Lemma case_works cs m te dl z ctx s v r : wfk m cs = true -> sndk_ok te dl cs = true -> typed te ctx ctx -> units m s -> parse_case z cs ctx s = Ok (v, r) -> lossless u v -> depsk cs = [] ->
  forall ctx', build_case z cs ctx' v <> Err EKey.
Proof.
  intros W S T U P L D ctx' E. destruct (proj1 (proj2 (proj2 (sound_mut u (adok u) (adapters_sound u)))) cs m te dl z ctx s v r ctx ctx W S U P T (ext_refl _) L) as (v' & Cf & _).
  destruct (proj1 (proj2 (proj2 (roundtrip_mut A_spec adapters_ok))) cs z m dl ctx ctx v v' W Cf) as (b & Eb & _).
  rewrite (proj1 (proj2 (proj2 build_agree_mut)) cs z ctx' ctx v) in E by (rewrite D; apply agree_nil). congruence.
Qed.
Lemma ints_back t l x C : intty (TT t) = true -> st (TT ("List(" ++ t ++ ")")) C (VList (map VInt l)) x -> x = VList (map VInt l).
Proof. intros I S. apply st_items in S as (l' & -> & F). f_equal. eapply st_int_items; eauto. Qed.
Lemma case_vals_find z cs : existsb (Z.eqb z) (case_vals cs) = true <-> find_case z cs <> None.
Proof.
  induction cs as [|n w c cs IH]; cbn [case_vals existsb find_case]; [split; [discriminate|easy]|]. destruct (z =? w); cbn [orb]; [split; [discriminate|reflexivity]|exact IH].
Qed.
Lemma setting_val t cs tg C m te dl ctx s1 y r1 l z idv tg2 b : Rk cs -> wfk m cs = true -> sndk_ok te dl cs = true -> typed te ctx ctx -> units m s1 -> setting sch t cs tg = true -> rtk cs tg C = true ->
  as_int idv = Some z -> lossless u y ->
  match find_case z cs with Some _ => parse_case z cs ctx s1 = Ok (y, r1) | None => y = VList (map VInt l) end ->
  In tg2 (nexts tg (camelcase (snd (setting_id t idv)))) -> st tg2 (under (camelcase (snd (setting_id t idv))) C) y b -> rcs z cs y b (rck z cs y b).
Proof.
  intros IH W S T U Se R Ez L P Hin St. unfold setting in Se. andb Se. unfold rcs. unfold setting_id in *. rewrite (int_key_as_int _ _ Ez) in *.
  destruct (find_case z cs) as [[n c]|] eqn:F.
  - assert (B : exists nm, by_value t z = Some (VEnum nm z) /\ n = nm).
    { match goal with H : forallb (cased_b t) _ = true |- _ => rewrite forallb_forall in H; pose proof (H z) as B end.
      assert (In z (case_vals cs)). { assert (E : existsb (Z.eqb z) (case_vals cs) = true) by (apply case_vals_find; congruence). apply existsb_exists in E as (z' & Hz & E). apply Z.eqb_eq in E. now subst. }
      specialize (B ltac:(assumption)). unfold cased_b in B. destruct (by_value t z) as [mv|] eqn:Bv; [|discriminate]. destruct (by_value_enum _ _ _ Bv) as (nm & -> & _). exists nm. split; [reflexivity|]. eapply case_names_eq; eauto. }
    destruct B as (nm & B & ->). rewrite B in *. cbn [snd] in *. split; [eapply IH; eauto|]. eapply case_works; eauto. now apply nil_b_nil.
  - subst y. assert (B : by_value t z = None).
    { destruct (by_value t z) as [mv|] eqn:Bv; [|reflexivity]. exfalso. destruct (by_value_enum _ _ _ Bv) as (nm & -> & Hin').
      match goal with H : forallb (fun p => existsb _ _) t = true |- _ => rewrite forallb_forall in H; specialize (H _ Hin'); cbn [snd] in H; apply case_vals_find in H; congruence end. }
    rewrite B in *. cbn [snd] in *. match goal with H : forallb rawb _ = true |- _ => rewrite forallb_forall in H; specialize (H _ Hin); unfold rawb in H end.
    destruct (elem tg2) as [e|] eqn:El; [|discriminate]. apply elem_eq in El. subst tg2. apply ints_back in St; [now subst|assumption].
Qed.
(** *** Two forms with the same numbers *)
Lemma wide_rcf f g : wider f g = true -> wff false f = true -> Master.distinct (Sound.names f) = true -> forall obj s d r d2 d' tg C, parse_fields f obj s = Ok (d, r) -> fresh f obj -> ext d d2 -> related tg C d2 d' ->
  forallb (fun k => forallb intty (nexts tg (camelcase k))) (Sound.names f) = true -> rcf f d2 d'.
Proof.
  revert g. induction f as [|k c f IH|k c dv f IH|k e c f IH|k n f IH|k f IH|n b IHb f IH]; intros g Hw W D obj s d r d2 d' tg C P Fr X Rel Hi;
    apply wider_inv in Hw as [[E ->]|(k0 & n0 & m0 & f' & g' & E & -> & Hle & Hw)]; try discriminate; [exact Logic.I|]. injection E as -> -> ->.
  cbn [parse_fields wff rcf Sound.names Master.distinct forallb] in *. andb W. andb D. andb Hi. apply negb_true_iff in D. apply vis_hidden in W.
  apply bind_ok in P as ([v0 r0] & Pc & P). cbn [parse] in Pc. apply bind_ok in Pc as ([a r1] & _ & E). unfold fresh in Fr. cbn [Sound.names] in Fr.
  assert (Gk : dget k0 d = Some v0).
  { rewrite (Sound.kept (adok u) f' [] true false _ _ _ _ k0 W0 (wider_ok (adok u) f' f' [] true (proj1 (wider_refl _ _ Hw))) P W ltac:(now apply existsb_string)). apply dget_dset_eq. }
  split; [|eapply (IH g'); eauto; now apply fresh_next].
  injection E as <- <-. specialize (Rel k0 W). rewrite (X _ _ W Gk) in *. destruct Rel as (tg1 & y & Hin & -> & St & _). rewrite forallb_forall in Hi. apply st_int in St; [subst y; reflexivity|now apply Hi].
Qed.
Lemma wide_fdeps f : forall g, wider f g = true -> fdeps f = [].
Proof.
  induction f as [|k c f IH|k c dv f IH|k e c f IH|k n f IH|k f IH|n b IHb f IH]; intros g Hw; apply wider_inv in Hw as [[E ->]|(k0 & n0 & m0 & f' & g' & E & -> & Hle & Hw)]; try discriminate; [reflexivity|].
  injection E as -> -> ->. cbn [fdeps deps app]. eauto.
Qed.
Lemma wff_hidden f m : wff m f = true -> forall g, wider f g = true -> forall k, In k (Sound.names f) -> hidden k = false.
Proof.
  induction f as [|k c f IH|k c dv f IH|k e c f IH|k n f IH|k f IH|n b IHb f IH]; intros W g Hw; apply wider_inv in Hw as [[E ->]|(k0 & n0 & m0 & f' & g' & E & -> & Hle & Hw)]; try discriminate; [intros j []|].
  injection E as -> -> ->. cbn [wff Sound.names] in *. andb W. intros j [<-|Hj]; [now apply vis_hidden|eauto].
Qed.
Lemma wide_rc l m te (dl : bool) ctx s v r tg C x : wide_select l = true -> wfa m l = true -> typed te ctx ctx -> units m s -> parse_alts l ctx s = Ok (v, r) -> wide sch l tg C = true -> st tg C v x -> rca l v x.
Proof.
  intros H W T U P R St. unfold wide_select in H. destruct l as [|c l]; [discriminate|]. destruct c; try discriminate. destruct c; try discriminate. destruct l as [|c l]; [discriminate|].
  destruct c; try discriminate. destruct c; try discriminate. destruct l; [|discriminate]. andb H. cbn [wfa] in W. andb W. cbn [wf] in W, W1. unfold wide in R. andb R.
  rename H into Hf. rename H3 into Hw. rename H2 into Vn. rename H1 into Df. rename H0 into Nn. destruct (wider_refl _ _ Hw) as [Hr En]. pose proof Vn as Vn0. pose proof Nn as Nn0. apply smem_not in Nn. apply vis_hidden in Vn.
  assert (Hm : m = false). { destruct fs; try discriminate; cbn [wider] in Hw. destruct c; try discriminate. cbn [wff wf] in W. andb W. now destruct m. } subst m.
  assert (Wg : wff false fs0 = true) by (cbn [wf] in W0; andb W0; assumption).
  cbn [parse_alts] in P. destruct (parse (CNamed name (CStruct fs)) ctx s) as [[w r0]|e|] eqn:E1; [| |discriminate].
  - injection P as -> ->. pose proof E1 as E2. cbn [parse] in E2. apply bind_ok in E2 as ([w r0] & Pg & E). apply bind_ok in Pg as ([d r1] & Pg & E'). injection E' as <- <-. injection E as <- _.
    assert (N : dget "_name" d = None).
    { destruct (unnamed_no (CStruct fs) false ctx s (VDict d) r1 eq_refl ltac:(assumption) W U) as (d0 & E & N); [|now injection E as <-]. cbn [parse]. now rewrite Pg. }
    assert (Gn : dget name d = None). { rewrite (Sound.kept (adok u) fs [] true false _ _ _ _ name W (wider_ok (adok u) fs fs [] true Hr) Pg Vn Nn). reflexivity. }
    assert (Wk : works (CNamed name (CStruct fs)) (VDict (dset "_name" (VStr (cps name)) d))).
    { eapply (works_of (CNamed name (CStruct fs)) false te dl None ctx s); eauto.
      - change ((chain (CStruct fs) && vis name && match keys_of (CStruct fs) with Some ks => negb (smem name ks) | None => false end && snd_ok te dl None (CStruct fs))%bool = true). cbn [chain keys_of andb]. rewrite Vn0. cbn [andb]. rewrite Nn0. change ((Master.distinct (Sound.names fs) && sndf_ok [] dl fs)%bool = true). now rewrite Df, (wider_ok (adok u) fs fs [] dl Hr).
      - reflexivity. }
    apply st_named in St as (tg1 & y & Hin & -> & St); [|exact N|exact Vn|intros ->; discriminate].
    left. split; [|left; exact Wk]. cbn [rc]. exists (dset "_name" (VStr (cps name)) d), [(name, y)]. split; [reflexivity|]. split; [reflexivity|]. split; [rewrite dget_dset_neq by (intros ->; discriminate); exact Gn|].
    cbn [dget]. rewrite String.eqb_refl.
    apply st_dict in St as (d' & -> & Rel); [|exact N]. cbn [rc]. exists (dset "_name" (VStr (cps name)) d), d'. split; [reflexivity|]. split; [reflexivity|]. split; [exact Df|].
    split; [exact (wff_hidden _ _ W _ Hw)|]. rewrite (wide_fdeps _ _ Hw). split; [intros j []|]. split; [apply rctx_nil|].
    assert (Rel' : related tg1 (under name C) (dset "_name" (VStr (cps name)) d) d').
    { intros j Hj. rewrite dget_dset_neq by (intros ->; discriminate). now apply Rel. }
    eapply (wide_rcf fs fs0 Hw W Df [] s d r1); eauto.
    + intros j _. reflexivity.
    + apply ext_dset_hidden; [apply ext_refl|reflexivity].
    + match goal with H : forallb _ (nexts tg name) = true |- _ => rewrite forallb_forall in H; now apply H end.
  - exfalso. destruct (parse (CNamed name0 (CStruct fs0)) ctx s) as [[w r0]|e2|] eqn:E2; [|discriminate|discriminate]. injection P as -> ->.
    cbn [parse] in E2. apply bind_ok in E2 as ([w r0] & Pg & E). apply bind_ok in Pg as ([d r1] & Pg & E'). injection E' as <- <-. injection E as <- _.
    destruct (unnamed_no (CStruct fs0) false ctx s (VDict d) r1 eq_refl ltac:(assumption) Wg U) as (d0 & E & N). { cbn [parse]. now rewrite Pg. }
    injection E as <-. match goal with H : vis name0 = true |- _ => apply vis_hidden in H end.
    apply st_named in St as (tg1 & y & Hin & -> & St); [|exact N|assumption|intros ->; discriminate]. eapply absent_no; [|exact St]. assumption.
Qed.
Theorem carry_mut : (forall c, Rc c) /\ (forall fs, Rf fs) /\ (forall cs, Rk cs) /\ (forall l, Ra l).
Proof.
  apply con_mutind.
  - (* CInt *) intros n sg m te dl k ctx s v r tg C W S T U P R. split; [intros _|discriminate]. intros x St K. cbn [parse rc] in *. apply bind_ok in P as ([a r0] & _ & E). injection E as <- _.
    cbn in R. now rewrite (st_int _ _ _ _ _ _ R St).
  - (* CBytesInt *) intros n sg m te dl k ctx s v r tg C W S T U P R. split; [intros _|discriminate]. intros x St K. cbn [parse rc] in *. apply bind_ok in P as ([a r0] & _ & E). injection E as <- _.
    cbn in R. now rewrite (st_int _ _ _ _ _ _ R St).
  - (* CBits *) intros n sg m te dl k ctx s v r tg C W S T U P R. split; [intros _|discriminate]. intros x St K. cbn [parse rc] in *. apply bind_ok in P as ([a r0] & _ & E). injection E as <- _.
    cbn in R. now rewrite (st_int _ _ _ _ _ _ R St).
  - (* CFlag *) intros m te dl k ctx s v r tg C W S T U P R. split; [intros _|discriminate]. intros x St K. cbn [parse rc] in *. destruct s; [discriminate|]. injection P as <- _.
    now rewrite (st_bool _ _ _ _ _ _ St).
  - (* CIeee *) intros n m te dl k ctx s v r tg C W S T U P R. split; [intros _|discriminate]. intros x St K. cbn [parse rc] in *. apply bind_ok in P as ([a r0] & _ & E). injection E as <- _.
    symmetry. eapply st_ieee; eauto.
  - intros n m te dl k ctx s v r tg C W S T U P R. discriminate R.
  - intros m te dl k ctx s v r tg C W S T U P R. discriminate R.
  - (* CGreedyString *) intros m te dl k ctx s v r tg C W S T U P R. split; [intros _|discriminate]. intros x St K. cbn [parse rc] in *. destruct (utf8_decode s); [|discriminate]. injection P as <- _.
    symmetry. eapply st_str; eauto.
  - (* CPaddedString *) intros e m te dl k ctx s v r tg C W S T U P R. split; [intros _|discriminate]. intros x St K. cbn [parse rc] in *. apply bind_ok in P as (n & En & P). destruct (n <? 0); [discriminate|].
    apply bind_ok in P as ([a r0] & P & E). destruct (utf8_decode (strip_nul a)); [|discriminate]. injection E as <- _. symmetry. eapply st_str; eauto.
  - (* CPascalString *) intros m te dl k ctx s v r tg C W S T U P R. split; [intros _|discriminate]. intros x St K. cbn [parse rc] in *. destruct s as [|b s]; [discriminate|].
    apply bind_ok in P as ([a r0] & P & E). destruct (utf8_decode a); [|discriminate]. injection E as <- _. symmetry. eapply st_str; eauto.
  - intros m te dl k ctx s v r tg C W S T U P R. discriminate R.
  - (* CPrefixedArray *) intros c IH m te dl k ctx s v r tg C W S T U P R. split; [intros _|discriminate]. intros x St K. cbn [parse rc wf] in *. cbn in S, R. andb W. andb S.
    destruct m; [discriminate|]. destruct s as [|b s]; [discriminate|]. inversion_clear U as [|? ? Ub Us]. apply bind_ok in P as ([l r0] & P & E). injection E as <- _.
    destruct (times_elems false _ _ _ _ _ (fun s0 v0 r0 U0 P0 => parse_units c false ctx s0 v0 r0 W0 U0 P0) Us P) as [Ln F].
    destruct (elem tg) as [t|] eqn:Et; [|discriminate]. apply elem_eq in Et. subst tg. apply st_items in St as (l' & -> & F2). exists l, l'. split; [reflexivity|]. split; [reflexivity|]. eapply list_rc; eauto.
  - (* CArray *) intros e c IH m te dl k ctx s v r tg C W S T U P R. split; [intros _|discriminate]. intros x St K. cbn [parse rc wf] in *. cbn in S, R. andb W. andb S.
    apply bind_ok in P as (n & En & P). destruct (n <? 0); [discriminate|]. apply bind_ok in P as ([l r0] & P & E). injection E as <- _.
    destruct (times_elems m _ _ _ _ _ (fun s0 v0 r0 U0 P0 => parse_units c m ctx s0 v0 r0 W0 U0 P0) U P) as [Ln F].
    destruct (elem tg) as [t|] eqn:Et; [|discriminate]. apply elem_eq in Et. subst tg. apply st_items in St as (l' & -> & F2). exists l, l'. split; [reflexivity|]. split; [reflexivity|]. eapply list_rc; eauto.
  - (* CGreedyRange *) intros c IH m te dl k ctx s v r tg C W S T U P R. split; [intros _|discriminate]. intros x St K. cbn [parse rc wf] in *. cbn in S, R. andb W. andb S.
    apply bind_ok in P as ([l r0] & P & E). injection E as <- _.
    pose proof (greedy_elems m _ _ _ _ _ (fun s0 v0 r0 U0 P0 => parse_units c m ctx s0 v0 r0 W U0 P0) U P) as F.
    destruct (elem tg) as [t|] eqn:Et; [|discriminate]. apply elem_eq in Et. subst tg. apply st_items in St as (l' & -> & F2). exists l, l'. split; [reflexivity|]. split; [reflexivity|]. eapply list_rc; eauto.
  - (* CStruct *) intros fs IH m te dl k ctx s v r tg C W S T U P R. split; [discriminate|intros _]. intros d d2 d' -> X Rel. cbn [parse rc wf] in *. cbn in S, R. andb S. andb R.
    apply bind_ok in P as ([d0 r0] & P & E). injection E as -> _. assert (Fr : fresh fs []) by (intros j _; reflexivity).
    assert (Dp : forall j, In j (fdeps fs) -> hidden j = false /\ match dget j d2, dget j d' with Some x, Some y => rval x y | None, None => True | _, _ => False end).
    { intros j Hj. rewrite forallb_forall in R. eapply (dep_rval fs [] dl m [] s d r0); eauto using typed_nil. }
    exists d2, d'. split; [reflexivity|]. split; [reflexivity|]. split; [exact S|]. split; [now apply (names_vis fs m)|]. split; [intros j Hj; now apply Dp|]. split; [intros j Hj; now apply Dp|].
    eapply (IH m [] dl [] s d r0); eauto using typed_nil.
  - (* CBitwise *) intros c IH m te dl k ctx s v r tg C W S T U P R. cbn [parse rc wf chain] in *. cbn in S, R. andb W. apply bind_ok in P as ([w r0] & P & E). destruct (bits2bytes r0) as [bs [|]]; [|discriminate]. injection E as <- _.
    destruct (IH true te dl None ctx _ w r0 tg C ltac:(eassumption) S T (bytes2bits_bits _) P R) as [H1 H2]. split; [|exact H2]. intros Hc x St _. apply H1; auto. exact Logic.I.
  - (* CBytewise *) intros c IH m te dl k ctx s v r tg C W S T U P R. split; [intros _|discriminate]. intros x St K. cbn [parse rc wf] in *. cbn in S, R. andb W. destruct m; [|discriminate].
    destruct (bits2bytes s) as [bs lo] eqn:B. apply bind_ok in P as ([w r0] & P & E). injection E as <- _.
    eapply (use_Rc c false te dl None ctx); eauto; [|exact Logic.I]. now apply (bits_bytes s bs lo).
  - (* CReversed *) intros n c IH m te dl k ctx s v r tg C W S T U P R. cbn [parse rc wf chain] in *. cbn in S, R. andb W. apply bind_ok in P as ([a r0] & P & E). apply bind_ok in E as ([w r1] & P1 & E). destruct r1; [|discriminate]. injection E as <- _.
    destruct (units_take _ _ _ _ _ P U) as [Ua _].
    destruct (IH m te false None ctx (rev a) w [] tg C ltac:(eassumption) S T (Forall_rev Ua) P1 R) as [H1 H2]. split; [|exact H2]. intros Hc x St _. apply H1; auto. exact Logic.I.
  - (* CAdapt *) intros a c IH m te dl k ctx s v r tg C W S T U P R. split; [intros _|discriminate]. intros x St K. cbn [parse rc wf] in *. cbn in S, R. andb R.
    apply bind_ok in P as ([w r0] & P & E). apply bind_ok in E as (y & D & E). injection E as <- _. split; [|now apply nil_b_nil].
    eapply (adapt_carry sch u k dl a c tg R S m ctx s w r0); eauto.
  - (* CSelect *) intros l IH m te dl k ctx s v r tg C W S T U P R. split; [intros _|discriminate]. intros x St K. cbn [rc wf] in *. pose proof P as P0. cbn [parse] in P.
    change (match kind_of (CSelect l) with Some (KP _) => intty tg | _ => if wide_select l then wide sch l tg C else rtal [] l tg C end = true) in R.
    destruct (kind_of (CSelect l)) as [kd|] eqn:Kl.
    + destruct (kp_shape _ _ Kl) as (t & n & sg & -> & ->). destruct (kind_parse _ _ _ _ _ _ Kl P0) as (z & Ez & B).
      assert (Hv : v = VInt z \/ exists n, v = VEnum n z). { destruct (by_value t z) as [y|] eqn:Eb; [|now left]. subst v. destruct (by_value_enum _ _ _ Eb) as (n' & -> & _). eauto. }
      rewrite (st_num _ _ _ _ _ _ _ R Hv St). cbn [rca rc]. left. split.
      * split; [|reflexivity]. destruct Hv as [-> |(n' & ->)]; reflexivity.
      * right. left. split; [exact Ez|]. right. exact Logic.I.
    + cbn in S. destruct (wide_select l) eqn:Wl; [eapply wide_rc; eauto|]. cbn [orb] in S. eapply (IH m te dl [] ctx s v r tg C x); eauto.
  - (* CNamed *) intros name c IH m te dl k ctx s v r tg C W S T U P R. split; [intros _|discriminate]. intros x St K. cbn [parse rc wf] in *. cbn in S, R. andb S. andb R.
    apply bind_ok in P as ([w r0] & P & E). destruct w as [| | | | | | | | | |d| | | | |]; try discriminate. injection E as <- _.
    destruct (keys_of c) as [ks|] eqn:Kc; [|discriminate]. destruct (keys_parse (adok u) _ _ _ _ _ _ _ _ _ _ Kc W S0 P) as (d0 & E & Hd). injection E as <-.
    apply vis_hidden in S2. apply smem_not in S1. pose proof (Hd _ S2 S1) as Nn.
    destruct (unnamed_no c m ctx s (VDict d) r0 S ltac:(eassumption) W U P) as (d0 & E & N). injection E as <-.
    apply st_named in St as (tg1 & y & Hin & -> & St); [|exact N|exact S2|intros ->; discriminate].
    exists (dset "_name" (VStr (cps name)) d), [(name, y)]. split; [reflexivity|]. split; [reflexivity|]. split; [rewrite dget_dset_neq by (intros ->; discriminate); exact Nn|].
    cbn [dget]. rewrite String.eqb_refl. rewrite forallb_forall in R0. specialize (R0 _ Hin). apply orb_prop in R0 as [A|R0]; [exfalso; eapply absent_no; eauto|].
    apply st_dict in St as (d' & -> & Rel); [|exact N]. destruct (IH m te dl None ctx s (VDict d) r0 tg1 _ W S0 T U P R0) as [_ H2].
    apply (H2 S d _ d' eq_refl); [apply ext_dset_hidden; [apply ext_refl|reflexivity]|]. eapply related_ext; [|exact Rel]. intros j Hj. apply dget_dset_neq. intros ->. discriminate.
  - intros k cs IH m te dl k0 ctx s v r tg C W S T U P R. discriminate R.
  - (* CEnumSwitchStruct *) intros k cs IH m te dl k0 ctx s v r tg C W S T U P R. split; [intros _|discriminate]. intros x St K. cbn [parse rc wf] in *. cbn in S, R. andb W. andb R.
    destruct (tget k te) as [[|t|t]|] eqn:Ek; try discriminate. andb S. destruct (T _ _ Ek) as (_ & y & G1 & _ & (n & z & -> & B)).
    unfold dgetr in P. rewrite G1 in P. cbn [bind] in P. apply bind_ok in P as ([w r0] & P & E). injection E as <- _. destruct (enum_cases_find _ _ _ _ S B) as (c & Fc).
    pose proof (vis_find_case _ _ _ _ W1 Fc) as Hn. destruct (st_one _ _ _ _ _ St Hn) as (tg1 & y & -> & Hin & St1).
    eexists _, _. split; [reflexivity|]. split; [reflexivity|]. intros z' n' c' F'. cbn [dget]. destruct (String.eqb_spec (lower n') (lower n)) as [E|]; [|exact Logic.I]. cbn [both].
    rewrite (case_keys_inj cs z' z n' n c' c R F' Fc E). eapply (IH m te dl z ctx s w r0); eauto.
  - (* CIfDefault *) intros k c IH df m te dl k0 ctx s v r tg C W S T U P R. split; [intros _|discriminate]. intros x St K. cbn [parse rc wf] in *. cbn in S, R. andb W. andb R.
    apply bind_ok in P as (kv & _ & P). assert (exists z, v = VInt z) as (z & ->).
    { destruct (truthy kv); [destruct (intc_parse c m ctx s v r R W1 U P) as (z & -> & _); eauto|]. injection P as <- _. destruct df; try discriminate. eauto. }
    rewrite (st_int _ _ _ _ _ _ R0 St). destruct c; try discriminate; reflexivity.
  - (* COpcode *) intros t m te dl k ctx s v r tg C W S T U P R. split; [intros _|discriminate]. intros x St K. cbn [rc wf] in *. cbn in R.
    destruct (kind_parse (COpcode t) (KE t) ctx s v r eq_refl P) as (n & z & -> & _). now rewrite (st_enum _ _ _ _ _ _ _ R St).
  - (* CSwitchStruct *) intros k kc IHk t sw cs IH m te dl k0 ctx s v r tg C W S T U P R. split; [intros _|discriminate]. intros x St K.
    cbn [parse rc wf] in *. cbn in S, R. andb W. andb S. andb R. destruct (kind_of kc) as [[|t'|t']|] eqn:Kk; try discriminate. apply enum_eqb_eq in S. subst t'.
    apply bind_ok in P as ([kv r0] & Pk & P). pose proof (kind_parse _ _ _ _ _ _ Kk Pk) as Hk. destruct Hk as (n & z & -> & B).
    apply bind_ok in P as ([y r1] & P & E). injection E as <- _.
    assert (Hn : lower n <> k).
    { destruct (by_value_enum _ _ _ B) as (n' & E & Hin). injection E as <-. rewrite forallb_forall in S1. specialize (S1 _ Hin). cbn [fst] in S1.
      intros E. rewrite E, String.eqb_refl in S1. discriminate. }
    pose proof Hn as Hn2. apply String.eqb_neq in Hn2. rewrite Hn2 in St |- *. pose proof (vis_enum_by_value t z n z ltac:(eassumption) B) as Hln. pose proof (vis_hidden k ltac:(eassumption)) as Hkv.
    apply st_dict in St as (d' & -> & Rel).
    2:{ cbn [dget]. destruct (String.eqb_spec "_name" k) as [Ek|]; [rewrite <- Ek in Hkv; discriminate|]. destruct (String.eqb_spec "_name" (lower n)) as [Ek|]; [rewrite <- Ek in Hln; discriminate|reflexivity]. }
    pose proof (Rel k Hkv) as Rk1. cbn [dget] in Rk1. rewrite String.eqb_refl in Rk1. destruct Rk1 as (tg1 & kv' & Hin1 & G1 & St1 & _).
    pose proof (Rel (lower n) Hln) as Rk2. cbn [dget] in Rk2. rewrite Hn2, String.eqb_refl in Rk2. destruct Rk2 as (tg2 & b & Hin2 & G2 & St2 & _).
    assert (I1 : intty tg1 = true) by (match goal with H : forallb intty _ = true |- _ => rewrite forallb_forall in H; now apply H end).
    rewrite (st_enum _ _ _ _ _ _ _ I1 St1) in G1.
    exists [(k, VEnum n z); (lower n, y)], d', (VEnum n z), (VInt z), z, n, y, b. split; [reflexivity|]. split; [reflexivity|]. split; [cbn [dget]; now rewrite String.eqb_refl|]. split; [exact G1|].
    split; [reflexivity|]. split; [reflexivity|]. split; [exact B|]. split; [cbn [dget]; now rewrite Hn2, String.eqb_refl|]. split; [exact G2|]. split; [|split; [now apply nil_b_nil|now apply smem_not]].
    destruct (find_case z cs) as [[n' c]|] eqn:F; [|now apply rck_find].
    assert (n' = n) by (eapply case_names_eq; eauto). subst n'. pose proof (parse_units kc m [] s _ _ ltac:(eassumption) U Pk) as U0.
    eapply (IH m [(k, KE t)] dl z [(k, VEnum n z)] r0); eauto.
    intros j kd Ej. cbn [tget] in Ej. destruct (String.eqb_spec j k) as [-> |]; [|discriminate]. injection Ej as <-. split; [exact Hkv|]. exists (VEnum n z).
      cbn [dget]. rewrite String.eqb_refl. cbn [has_kind]. eauto 6.
  - (* CProp *) intros hdr IHh t cs IH m te dl k ctx s v r tg C W S T U P R. split; [intros _|discriminate]. intros x St K.
    cbn [parse rc wf] in *. cbn in S, R. andb W. andb S. andb R. apply bind_ok in P as ([h r0] & Ph & P). destruct h as [| | | | | | | | | |h| | | | |]; try discriminate.
    apply bind_ok in P as (idv & Gi & P). unfold dgetr in Gi. destruct (dget "property_id" h) as [idv'|] eqn:G; [|discriminate]. injection Gi as ->.
    apply bind_ok in P as (z & Ez & P). destruct (by_value t z) as [[]|] eqn:B; try discriminate. destruct (find_case z0 cs) as [[n c]|] eqn:F; [|discriminate].
    apply bind_ok in P as ([y r1] & P & E). injection E as <- _. rename name into nm.
    assert (z0 = z). { destruct (by_value_enum _ _ _ B) as (n' & E & _). now injection E. } subst z0.
    assert (Hnm : n = nm) by (eapply case_names_eq; eauto). subst n.
    assert (Hl : hidden (lower nm) = false) by (eapply vis_enum_by_value; eauto).
    assert (Hc : chain hdr = true). { unfold idfield in S. destruct hdr; try discriminate. reflexivity. }
    destruct (unnamed_no hdr m ctx s (VDict h) r0 Hc (rt_unnamed _ _ _ Hc ltac:(eassumption)) ltac:(eassumption) U Ph) as (h0 & E & Nh). injection E as <-.
    assert (Hk0 : kind_of hdr = None) by (destruct hdr; discriminate || reflexivity).
    assert (Hi : exists fs c0, hdr = CStruct fs /\ flookup "property_id" fs = Some c0 /\ (kind_of c0 = Some (KE t) \/ kind_of c0 = Some (KP t)) /\ (forall n z, by_value t z = Some (VEnum n z) -> ~ In (lower n) (Sound.names fs))).
    { unfold idfield in S. destruct hdr as [| | | | | | | | | | | | | |fs| | | | | | | | | | | | | | ]; try discriminate. andb S. destruct (flookup "property_id" fs) as [c0|] eqn:F0; [|discriminate]. exists fs, c0. split; [reflexivity|]. split; [exact F0|].
      split; [|].
      - destruct (kind_of c0) as [[|t'|t']|]; try discriminate; match goal with H : enum_eqb _ _ = true |- _ => apply enum_eqb_eq in H; subst t' end; auto.
      - intros n' z' B'. destruct (by_value_enum _ _ _ B') as (n2 & E & Hin'). injection E as <-. match goal with H : forallb _ t = true |- _ => rewrite forallb_forall in H; specialize (H _ Hin'); now apply smem_not in H end. }
    destruct Hi as (fs & c0 & -> & F0 & Hkd & Nin). pose proof Ph as Ph'. cbn [parse] in Ph'. apply bind_ok in Ph' as ([h0 r2] & Ph' & E). injection E as -> ->.
    match goal with H : snd_ok te true None (CStruct fs) = true |- _ => pose proof H as Sh; cbn in H; andb H end. match goal with H : wf m (CStruct fs) = true |- _ => pose proof H as Wh; cbn [wf] in H end.
    assert (Fr : fresh fs []) by (intros j _; reflexivity).
    destruct (flookup_parse (adok u) "property_id" fs [] true m [] s h r0 c0 F0) as (ctx1 & s1 & v1 & r3 & P1 & G1 & _); auto. rewrite G in G1. injection G1 as <-.
    assert (idv = VEnum nm z).
    { destruct Hkd as [Hkd|Hkd]; pose proof (kind_parse _ _ _ _ _ _ Hkd P1) as Hk.
      - destruct Hk as (n & w & -> & B'). unfold as_intr in Ez. cbn [as_int] in Ez. injection Ez as ->. rewrite B in B'. now injection B' as ->.
      - destruct Hk as (w & E1 & E2). unfold as_intr in Ez. rewrite E1 in Ez. injection Ez as ->. rewrite B in E2. exact E2. } subst idv.
    assert (Gn : dget (lower nm) h = None).
    { rewrite (Sound.kept (adok u) fs [] true m [] s h r0 (lower nm)); auto. eapply Nin; eauto. }
    assert (Hne : lower nm <> "property_id"%string) by (intros E; rewrite E in Gn; congruence).
    set (d2 := dset (lower nm) y (dset "property_id" (VEnum nm z) (ddel "property_id" h))) in *.
    assert (X2 : ext h d2).
    { intros j y0 Hj Gy. unfold d2. rewrite dget_dset_neq by congruence. destruct (string_dec j "property_id") as [-> |Hn]; [rewrite dget_dset_eq; congruence|]. rewrite dget_dset_neq, dget_ddel_neq by exact Hn. exact Gy. }
    apply st_dict in St as (d' & -> & Rel).
    2:{ unfold d2. rewrite dget_dset_neq by (intros E; rewrite <- E in Hl; discriminate). rewrite dget_dset_neq, dget_ddel_neq by discriminate. exact Nh. }
    assert (E1 : dget "property_id" d2 = Some (VEnum nm z)) by (unfold d2; rewrite dget_dset_neq by (intros E; now apply Hne); apply dget_dset_eq).
    assert (E2 : dget (lower nm) d2 = Some y) by apply dget_dset_eq.
    assert (Rh : rc (CStruct fs) (VDict d2) (VDict d')).
    { destruct (IHh m te true None ctx s (VDict h) r0 tg C Wh Sh T U Ph ltac:(eassumption)) as [_ H2]. now apply (H2 eq_refl h d2 d' eq_refl). }
    pose proof (Rel "property_id"%string eq_refl) as Ra1. rewrite E1 in Ra1. destruct Ra1 as (tg1 & kv' & Hin1 & G1 & St1 & _).
    pose proof (Rel (lower nm) Hl) as Ra2. rewrite E2 in Ra2. destruct Ra2 as (tg2 & b & Hin2 & G2 & St2 & _).
    assert (I1 : intty tg1 = true) by (match goal with H : forallb intty _ = true |- _ => rewrite forallb_forall in H; now apply H end).
    rewrite (st_enum _ _ _ _ _ _ _ I1 St1) in G1.
    split; [exact Rh|]. exists d2, d', (VEnum nm z), (VInt z), z, nm, y, b. repeat (split; [easy|]). eapply (IH m te dl z ctx r0 y r1); eauto using parse_units.
  - (* CSensorSetting *) intros hdr IHh t cs IH m te dl k ctx s v r tg C W S T U P R. split; [intros _|discriminate]. intros x St K.
    cbn [parse rc wf] in *. cbn in S, R. andb W. andb S. andb R. apply bind_ok in P as ([h r0] & Ph & P). destruct h as [| | | | | | | | | |h| | | | |]; try discriminate.
    apply bind_ok in P as (idv & Gi & P). unfold dgetr in Gi. destruct (dget sid_name h) as [idv'|] eqn:G; [|discriminate]. injection Gi as ->.
    destruct (header_sound u (adok u) sid_name t hdr m te ctx s h r0 ctx ctx idv (proj1 (sound_mut u (adok u) (adapters_sound u)) hdr) ltac:(assumption) ltac:(assumption) ltac:(assumption) U Ph T (ext_refl _) G) as (I & Hv & Hh).
    destruct I as (z & Ez & Mz).
    assert (Hc : chain hdr = true). { unfold idfield in S. destruct hdr; try discriminate. reflexivity. }
    destruct (unnamed_no hdr m ctx s (VDict h) r0 Hc (rt_unnamed _ _ _ Hc ltac:(eassumption)) ltac:(eassumption) U Ph) as (h0 & E & Nh). injection E as <-.
    assert (exists nm, setting_id t idv = (idv, nm) /\ (idv = VInt z \/ exists n, idv = VEnum n z) /\ (by_value t z = None -> idv = VInt z) /\ hidden nm = false
                       /\ (nm = raw_name \/ exists n z, by_value t z = Some (VEnum n z) /\ nm = lower n)) as (nm & Es & Se & Hz & Hn & Hnm).
    { unfold setting_id. rewrite (int_key_as_int _ _ Ez). destruct (by_value t z) as [mv|] eqn:B.
      - destruct (by_value_enum _ _ _ B) as (n & -> & Hin). subst idv. exists (lower n). split; [reflexivity|]. split; [eauto|]. split; [discriminate|]. split; [|right; eauto].
        match goal with H : setting _ _ _ _ = true |- _ => unfold setting in H; andb H end. match goal with H : forallb (fun p => vis (lower (fst p))) t = true |- _ => rewrite forallb_forall in H; specialize (H _ Hin); now apply vis_hidden in H end.
      - exists raw_name. split; [reflexivity|]. auto. }
    rewrite Es in P. unfold as_intr in P. rewrite Ez in P. cbn [bind] in P.
    pose proof (parse_units _ _ _ _ _ _ ltac:(eassumption) U Ph) as U0.
    assert (exists y r1, v = VDict (dset nm y (dset sid_name idv (ddel sid_name h))) /\ match find_case z cs with Some _ => parse_case z cs ctx r0 = Ok (y, r1) | None => y = VList (map VInt r0) end) as (y & r1 & -> & Hy).
    { destruct (find_case z cs); [apply bind_ok in P as ([y r1] & P & E); injection E as <- _; eauto|injection P as <- _; exists (VList (map VInt r0)), []; auto]. }
    clear P. destruct (Hh nm y Hnm Hn) as (Hne & _). clear Hh. set (d2 := dset nm y (dset sid_name idv (ddel sid_name h))) in *.
    assert (Gn : dget nm h = None).
    { unfold idfield in S. destruct hdr as [| | | | | | | | | | | | | |fs| | | | | | | | | | | | | | ]; try discriminate. andb S. cbn [parse] in Ph. apply bind_ok in Ph as ([h0 r2] & Ph & E). injection E as -> ->.
      match goal with H : snd_ok te true None (CStruct fs) = true |- _ => cbn in H; andb H end. match goal with H : wf m (CStruct fs) = true |- _ => cbn [wf] in H end.
      rewrite (Sound.kept (adok u) fs [] true m [] s h r0 nm); auto. destruct Hnm as [-> | (n' & z' & B' & ->)]; [now apply smem_not|].
      destruct (by_value_enum _ _ _ B') as (n2 & E & Hin'). injection E as <-. match goal with H : forallb _ t = true |- _ => rewrite forallb_forall in H; specialize (H _ Hin'); now apply smem_not in H end. }
    assert (X2 : ext h d2).
    { intros j y0 Hj Gy. unfold d2. rewrite dget_dset_neq by congruence. destruct (string_dec j sid_name) as [-> |Hnj]; [rewrite dget_dset_eq; congruence|]. rewrite dget_dset_neq, dget_ddel_neq by exact Hnj. exact Gy. }
    assert (Ly : lossless u y) by (eapply (lossless_dict u _ nm y (st_lossless _ _ _ _ _ _ St)); apply dget_In; apply dget_dset_eq).
    apply st_dict in St as (d' & -> & Rel).
    2:{ unfold d2. rewrite dget_dset_neq by (intros E; rewrite <- E in Hn; discriminate). rewrite dget_dset_neq, dget_ddel_neq by discriminate. exact Nh. }
    assert (E1 : dget sid_name d2 = Some idv) by (unfold d2; rewrite dget_dset_neq by (intros E; now apply Hne); apply dget_dset_eq).
    assert (E2 : dget nm d2 = Some y) by apply dget_dset_eq.
    assert (Rh : rc hdr (VDict d2) (VDict d')).
    { destruct (IHh m te true None ctx s (VDict h) r0 tg C ltac:(assumption) ltac:(assumption) T U Ph ltac:(eassumption)) as [_ H2]. now apply (H2 Hc h d2 d' eq_refl). }
    pose proof (Rel sid_name eq_refl) as Ra1. rewrite E1 in Ra1. destruct Ra1 as (tg1 & kv' & Hin1 & G1 & St1 & _).
    pose proof (Rel nm Hn) as Ra2. rewrite E2 in Ra2. destruct Ra2 as (tg2 & b & Hin2 & G2 & St2 & _).
    assert (I1 : intty tg1 = true).
    { match goal with H : setting _ _ _ _ = true |- _ => unfold setting in H; andb H end. match goal with H : forallb intty _ = true |- _ => rewrite forallb_forall in H; now apply H end. }
    rewrite (st_num _ _ _ _ _ _ _ I1 Se St1) in G1. assert (Ik : int_key idv = Some z) by now apply int_key_as_int.
    split; [exact Rh|]. exists d2, d', idv, (VInt z), z, y, b. repeat (split; [easy|]). rewrite Es. cbn [snd]. repeat (split; [easy|]).
    eapply (setting_val t cs tg C m te dl ctx r0 y r1 r0 z idv tg2 b); eauto; rewrite Es; cbn [snd]; assumption.
  - intros t cs IH m te dl k ctx s v r tg C W S T U P R. discriminate R.
  - (* FNil *) intros m te dl obj s d r d2 d' tg C W S T U P D Fr R X Rel. exact Logic.I.
  - (* FCons *) intros k c IHc fs IH m te dl obj s d r d2 d' tg C W S T U P D Fr R X Rel.
    cbn [parse_fields wff rcf] in *. cbn in S, R. cbn [Sound.names Master.distinct] in D. unfold fresh in Fr. cbn [Sound.names] in Fr. andb W. andb S. andb D. andb R.
    apply bind_ok in P as ([v r0] & Pc & P). apply negb_true_iff in D. apply vis_hidden in W. pose proof (fresh_next k v fs obj D Fr) as Fr'.
    assert (Gk : dget k d = Some v) by (rewrite (Sound.kept (adok u) _ _ _ _ _ _ _ _ k W0 S0 P W ltac:(now apply existsb_string)); apply dget_dset_eq).
    pose proof (X _ _ W Gk) as Gk2. split.
    + destruct (field_rc m te _ obj s v r0 k c d2 d' tg C IHc W1 S T U Pc W R Gk2 Rel) as (b & Gb & Hb). rewrite Gk2, Gb. exact Hb.
    + eapply (IH m _ dl (dset k v obj) r0 d r); eauto using parse_units.
      destruct (kind_of c) as [kd|] eqn:Kc; cbn [tadd]; [apply typed_add; auto; [apply Fr; now left|eapply kind_parse; eauto] | apply typed_skip; auto; apply Fr; now left].
  - (* FDefault *) intros k c IHc df fs IH m te dl obj s d r d2 d' tg C W S T U P D Fr R X Rel.
    cbn [parse_fields wff rcf] in *. cbn in S, R. cbn [Sound.names Master.distinct] in D. unfold fresh in Fr. cbn [Sound.names] in Fr. andb W. andb S. andb D. andb R.
    apply bind_ok in P as ([v r0] & Pc & P). apply negb_true_iff in D. apply vis_hidden in W. pose proof (fresh_next k v fs obj D Fr) as Fr'.
    assert (Gk : dget k d = Some v) by (rewrite (Sound.kept (adok u) _ _ _ _ _ _ _ _ k W0 S0 P W ltac:(now apply existsb_string)); apply dget_dset_eq).
    pose proof (X _ _ W Gk) as Gk2. split.
    + destruct (field_rc m te _ obj s v r0 k c d2 d' tg C IHc W1 S1 T U Pc W R1 Gk2 Rel) as (b & Gb & Hb). exists v, b.
      destruct c; try discriminate. cbn [rc] in Hb. pose proof Hb as (l & l' & I1 & I2 & _). repeat (split; [solve [assumption | intros ->; discriminate]|]). exact Hb.
    + eapply (IH m _ dl (dset k v obj) r0 d r); eauto using parse_units. apply typed_skip; auto. apply Fr. now left.
  - (* FRebuild *) intros k e c IHc fs IH m te dl obj s d r d2 d' tg C W S T U P D Fr R X Rel.
    cbn [parse_fields wff rcf] in *. cbn in S, R. cbn [Sound.names Master.distinct] in D. unfold fresh in Fr. cbn [Sound.names] in Fr. andb W. andb S. andb D. andb R.
    apply bind_ok in P as ([v r0] & Pc & P). apply negb_true_iff in D. apply vis_hidden in W. pose proof (fresh_next k v fs obj D Fr) as Fr'.
    split; [now apply nil_b_nil|]. eapply (IH m _ dl (dset k v obj) r0 d r); eauto using parse_units.
    destruct (kind_of c) as [[| |]|] eqn:Kc; try discriminate. apply typed_add; auto; [apply Fr; now left|eapply kind_parse; eauto].
  - (* FPad *) intros k n fs IH m te dl obj s d r d2 d' tg C W S T U P D Fr R X Rel.
    cbn [parse_fields wff rcf] in *. cbn in S, R. cbn [Sound.names] in D. unfold fresh in Fr. cbn [Sound.names] in Fr. andb S. andb R.
    apply bind_ok in P as ([v r0] & Pc & P). destruct (units_take _ _ _ _ _ Pc U) as [_ U0]. split; [now destruct k|]. destruct k as [k|].
    + eapply (IH m te dl (dset k VNone obj) r0 d r); eauto.
      * intros i kd E. destruct (T _ _ E) as (Hj & x & G1 & G2 & G3). split; [exact Hj|]. exists x. rewrite dget_dset_neq; [auto|]. intros ->. congruence.
      * intros i Hi. rewrite dget_dset_neq; [now apply Fr|]. intros ->. pose proof (names_vis _ _ W _ Hi). congruence.
    + eapply (IH m te dl obj r0 d r); eauto.
  - intros k fs IH m te dl obj s d r d2 d' tg C W S T U P D Fr R X Rel. discriminate R.
  - (* FBits *) intros n bs IHb fs IH m te dl obj s d r d2 d' tg C W S T U P D Fr R X Rel.
    cbn [parse_fields wff rcf] in *. cbn in S, R. cbn [Sound.names] in D. unfold fresh in Fr. cbn [Sound.names] in Fr. andb W. andb S. andb R.
    apply bind_ok in P as ([a r0] & Pa & P). apply bind_ok in P as ([bd r1] & Pb & P). destruct r1; [|discriminate].
    destruct (distinct_app _ _ D) as (D1 & D2 & D3). destruct (units_take _ _ _ _ _ Pa U) as [_ U0].
    destruct (copy_eq bs bd _ _ (dset "_" (VDict bd) obj) ltac:(eassumption) Pb) as (E & N & En). rewrite E in P. clear E.
    set (obj' := dmerge (dset "_" (VDict bd) obj) bd) in *.
    assert (Hb : forall k x, hidden k = false -> dget k bd = Some x -> In k (Sound.names bs)).
    { intros k x Hk Hx. eapply names_bit; [exact En|eassumption|exact Hk|]. apply dget_In in Hx. unfold keys. apply in_map_iff. exists (k, x). auto. }
    assert (G : forall k, hidden k = false -> dget k obj' = match dget k bd with Some x => Some x | None => dget k obj end).
    { intros k Hk. unfold obj'. rewrite dget_dmerge by exact N. destruct (dget k bd); [reflexivity|]. apply dget_dset_neq. intros ->. discriminate. }
    assert (Fr' : fresh fs obj').
    { intros k Hk. pose proof (names_vis _ _ W0 _ Hk) as Hv. rewrite G by exact Hv. destruct (dget k bd) as [x|] eqn:Ex; [|apply Fr, in_or_app; now right].
      exfalso. eauto. }
    pose proof (kept_ext (adok u) fs te dl m obj' r0 d r W0 S0 P Fr') as EX.
    assert (Xb : ext bd d). { intros k x Hk Hx. apply EX; [exact Hk|]. rewrite G, Hx by exact Hk. reflexivity. }
    assert (Xb2 : ext bd d2) by (intros k x Hk Hx; apply X; auto). split.
    + eapply (IHb true [] false [] (bytes2bits (rev a)) bd []); eauto using typed_nil, bytes2bits_bits; [apply bytes2bits_bits|]. intros k _. reflexivity.
    + eapply (IH m te dl obj' r0 d r); eauto.
      intros k kd Ek. destruct (T _ _ Ek) as (Hk & x & G1 & G2 & G3). split; [exact Hk|]. exists x.
      assert (Nb : dget k bd = None). { destruct (dget k bd) as [y|] eqn:Ey; [|reflexivity]. rewrite Fr in G1; [discriminate|]. apply in_or_app. left. eauto. }
      rewrite G, Nb by exact Hk. auto.
  - (* KNil *) intros m te dl z ctx s v r n c tg C tg1 x W S T U P F. discriminate F.
  - (* KCons *) intros n w c IHc cs IH m te dl z ctx s v r n0 c0 tg C tg1 x W S T U P F R Hin St. cbn [parse_case wfk rck find_case] in *. cbn in S, R. andb W. andb S. andb R.
    destruct (z =? w); [|eapply IH; eauto]. injection F as <- <-. match goal with H : forallb _ _ = true |- _ => rewrite forallb_forall in H; specialize (H _ Hin) end. eapply use_opt; eauto. exact Logic.I.
  - (* ANil *) intros m te dl prev ctx s v r tg C x W S T U P. discriminate P.
  - (* ACons *) intros c IHc l IH m te dl prev ctx s v r tg C x W S T U P R St. cbn [parse_alts wfa rca] in *. cbn in S, R. andb W. andb S. andb R.
    destruct (parse c ctx s) as [[w r0]|e|] eqn:E; [| |discriminate].
    + injection P as <- <-. assert (Hd : deps c = []) by now apply nil_b_nil. split.
      * left. split; [eapply use_Rc; eauto; exact Logic.I|]. left. eapply works_of; eauto. exact Logic.I.
      * intros cj Hj. destruct c as [| | | | | | | | | | | | | | | | | | | |nm c1| | | | | | | | ]; try discriminate. rewrite forallb_forall in R. specialize (R _ Hj). unfold refused in R. andb R.
        destruct (keys_of (CNamed nm c1)) as [ks|] eqn:Kc; [|discriminate]. destruct (keys_parse (adok u) (CNamed nm c1) ks te dl None m ctx s w r0 Kc W S E) as (d0 & -> & Hks).
        split; [intros ctx'; apply missing_err; eapply missb_missing; [exact R|exact Hks]|].
        destruct (IHc m te dl None ctx s (VDict d0) r0 tg C W S T U E ltac:(eassumption)) as [H1 _]. specialize (H1 eq_refl x St Logic.I).
        assert (exists y, x = VDict [(nm, y)]) as (y & ->).
        { cbn [parse] in E. apply bind_ok in E as ([w1 r1] & P1 & E1). destruct w1 as [| | | | | | | | | |d1| | | | |]; try discriminate. injection E1 as <- _.
          assert (Hr : chain c1 = true /\ unnamed c1 = true /\ vis nm = true /\ negb (String.eqb nm "") = true) by (match goal with H : _ = true |- _ => change (rt (CNamed nm c1) tg C = true) in H; clear -H; cbn in H; andb H; auto end). destruct Hr as (Hr1 & Hr2 & Hr3 & Hr4). cbn [wf] in W.
          destruct (unnamed_no c1 m ctx s (VDict d1) r1 Hr1 Hr2 W U P1) as (dd & E1 & N). injection E1 as <-.
          apply vis_hidden in Hr3.
          apply st_named in St as (tg1 & y & _ & -> & _); [eauto|exact N|exact Hr3|intros ->; discriminate]. }
        intros ctx'. apply missing_err. eapply missb_missing; [eassumption|]. intros j _ Hn. cbn [dget]. destruct (String.eqb_spec j nm) as [-> |]; [exfalso; apply Hn; now left|reflexivity].
    + destruct (IH m te dl (c :: prev) ctx s v r tg C x W0 S0 T U P) as (H1 & H2); auto. split.
      * right. destruct (H2 c (or_introl eq_refl)) as [F1 F2]. auto.
      * intros cj Hj. apply H2. now right.
Qed.
(** *** An item of sensor data *)
Lemma data_rc t cs te dl ctx s v r tg C x : forallb (fun p => negb (smem (lower (fst p)) ["format"; "length"; sid_name]%string)) t = true -> wf false (CSensorData t cs) = true -> sndk_ok te dl cs = true -> typed te ctx ctx -> bytes s -> parse (CSensorData t cs) ctx s = Ok (v, r) ->
  setting sch t cs tg = true -> forallb intty (nexts tg "format") = true -> forallb intty (nexts tg "length") = true -> rtk cs tg C = true -> st tg C v x -> rc (CSensorData t cs) v x.
Proof.
  intros Nt W S T U P Se Hf Hl R St. cbn [parse wf rc] in *. andb W. rename W0 into Vt. destruct s as [|b0 [|b1 s1]]; try discriminate.
  apply bind_ok in P as ([[[fmt len] pid] s2] & Hq & P).
  assert (U2 : bytes s2). { unfold bytes in *. inversion_clear U as [|? ? _ U']. inversion_clear U' as [|? ? _ U'']. destruct (Z.odd b0); [destruct s1; [discriminate|]; inversion_clear U''|]; injection Hq as _ _ _ <-; assumption. }
  set (sub := firstn (Z.to_nat len) s2) in *. assert (Us : units false sub) by (unfold sub; rewrite <- (firstn_skipn (Z.to_nat len) s2) in U2; apply Forall_app in U2; tauto).
  assert (exists idv nm, setting_id t (VInt pid) = (idv, nm) /\ (idv = VInt pid \/ exists n, idv = VEnum n pid) /\ setting_id t idv = (idv, nm) /\ hidden nm = false /\ smem nm ["format"; "length"; sid_name]%string = false) as (idv & nm & E1 & Si & E2 & Hn & Ne).
  { unfold setting_id. change (int_key (VInt pid)) with (Some pid). cbv iota. destruct (by_value t pid) as [mv|] eqn:B.
    - destruct (by_value_enum _ _ _ B) as (n & -> & Hin). exists (VEnum n pid), (lower n). split; [reflexivity|]. split; [right; now exists n|]. change (int_key (VEnum n pid)) with (Some pid). cbv iota. rewrite B. split; [reflexivity|]. split; [eapply vis_enum_by_value; eauto|].
      rewrite forallb_forall in Nt. specialize (Nt _ Hin). now apply negb_true_iff in Nt.
    - exists (VInt pid), raw_name. change (int_key (VInt pid)) with (Some pid). cbv iota. rewrite B. auto 6. }
  rewrite E1 in P.
  assert (exists y r1, v = VDict (dset nm y [("format"%string, VInt fmt); ("length"%string, VInt len); (sid_name, idv)]) /\ match find_case pid cs with Some _ => parse_case pid cs ctx sub = Ok (y, r1) | None => y = VList (map VInt sub) end) as (y & r1 & -> & Hy).
  { destruct (find_case pid cs).
    - apply bind_ok in P as ([y r1] & P & E). injection E as <- _. exists y, r1. split; [reflexivity|exact P].
    - injection P as <- _. exists (VList (map VInt sub)), []. split; reflexivity. }
  clear P. set (d2 := dset nm y _) in *.
  apply negb_true_iff, smem_not in Ne.
  assert (Nf : "format"%string <> nm) by (intros <-; apply Ne; cbn; tauto). assert (Nl : "length"%string <> nm) by (intros <-; apply Ne; cbn; tauto). assert (Ni : sid_name <> nm) by (intros <-; apply Ne; cbn; tauto).
  assert (Nn : "_name"%string <> nm) by (intros <-; discriminate Hn).
  assert (Ly : lossless u y) by (eapply (lossless_dict u _ nm y (st_lossless _ _ _ _ _ _ St)); apply dget_In; apply dget_dset_eq).
  apply st_dict in St as (d' & -> & Rel); [|unfold d2; rewrite dget_dset_neq by exact Nn; reflexivity].
  assert (Q1 : dget sid_name d2 = Some idv) by (unfold d2; rewrite dget_dset_neq by exact Ni; reflexivity).
  assert (Q2 : dget nm d2 = Some y) by apply dget_dset_eq.
  assert (Q3 : dget "format" d2 = Some (VInt fmt)) by (unfold d2; rewrite dget_dset_neq by exact Nf; reflexivity).
  assert (Q4 : dget "length" d2 = Some (VInt len)) by (unfold d2; rewrite dget_dset_neq by exact Nl; reflexivity).
  pose proof (Rel sid_name eq_refl) as Ra1. rewrite Q1 in Ra1. destruct Ra1 as (tg1 & kv' & Hin1 & G1 & St1 & _).
  pose proof (Rel nm Hn) as Ra2. rewrite Q2 in Ra2. destruct Ra2 as (tg2 & b & Hin2 & G2 & St2 & _).
  pose proof (Rel "format"%string eq_refl) as Ra3. rewrite Q3 in Ra3. destruct Ra3 as (tg3 & f' & Hin3 & G3 & St3 & _).
  pose proof (Rel "length"%string eq_refl) as Ra4. rewrite Q4 in Ra4. destruct Ra4 as (tg4 & l' & Hin4 & G4 & St4 & _).
  assert (I1 : intty tg1 = true).
  { unfold setting in Se; andb Se. match goal with H : forallb intty (nexts tg (camelcase sid_name)) = true |- _ => rewrite forallb_forall in H; now apply H end. }
  rewrite (st_num _ _ _ _ _ _ _ I1 Si St1) in G1. rewrite forallb_forall in Hf, Hl. rewrite (st_int _ _ _ _ _ _ (Hf _ Hin3) St3) in G3. rewrite (st_int _ _ _ _ _ _ (Hl _ Hin4) St4) in G4.
  assert (Ez : as_int idv = Some pid) by (destruct Si as [-> | (n & ->)]; reflexivity).
  exists d2, d', idv, (VInt pid), pid, y, b. split; [reflexivity|]. split; [reflexivity|]. split; [exact Q1|]. split; [exact G1|]. split; [exact Ez|]. split; [reflexivity|].
  rewrite Q3, G3, Q4, G4. split; [apply rval_refl|]. split; [apply rval_refl|]. rewrite E2. cbn [snd]. split; [exact Q2|]. split; [exact G2|].
  eapply (setting_val t cs tg C false te dl ctx sub y r1 sub pid idv tg2 b); eauto; try (rewrite E2; cbn [snd]; assumption). apply (proj1 (proj2 (proj2 carry_mut))).
Qed.
End CarryRt.

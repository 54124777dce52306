(** * Recode: arguments that differ the way Cap'n Proto returns them (basis of C55).

    [rc c v x]: building the declaration [c] from [x] gives the bytes that building it from [v] gives.  The relation
    follows the declaration; what it allows beyond equality is an int for an enum member, a float for a number that is
    scaled anyway, a dict for a date, another order of keys, and {name: {...}} for a dict with that [_name]. *)
From Verif Require Import PyVal Bits Float64 Utf8 Adapters Construct Size Master Deps Uses Sound.
Local Open Scope list_scope.
Local Open Scope Z_scope.

(** *** Fields that other fields refer to *)
Definition flen (v : val) : option Z := match v with VDict ((_, x) :: _) => vlen x | _ => None end.
Definition rval (x y : val) : Prop := int_key x = int_key y /\ as_int x = as_int y /\ truthy x = truthy y /\ vlen x = vlen y /\ flen x = flen y.
Lemma rval_refl x : rval x x. Proof. now repeat split. Qed.
Definition rctx (ks : list string) (a b : dict) : Prop :=
  forall k, In k ks -> match dget k a, dget k b with Some x, Some y => rval x y | None, None => True | _, _ => False end.
Lemma rctx_app x y a b : rctx (x ++ y) a b -> rctx x a b /\ rctx y a b.
Proof. intros H. split; intros k Hk; apply H, in_or_app; auto. Qed.
Lemma rctx_cons k y a b : rctx (k :: y) a b -> match dget k a, dget k b with Some x, Some y => rval x y | None, None => True | _, _ => False end /\ rctx y a b.
Proof. intros H. split; [apply H; now left|]. intros j Hj. apply H. now right. Qed.
Lemma rctx_incl x y a b : incl x y -> rctx y a b -> rctx x a b. Proof. intros I H k Hk. apply H, I, Hk. Qed.
Lemma rctx_nil a b : rctx [] a b. Proof. intros k []. Qed.
Lemma eval_rctx e a b : rctx (edeps e) a b -> eval e a = eval e b.
Proof.
  intros H. destruct e; cbn [eval edeps] in *; [reflexivity| | |]; apply rctx_cons in H as [H _]; unfold dgetr;
    destruct (dget k a) as [x|], (dget k b) as [y|]; try contradiction; try reflexivity; cbn [bind]; destruct H as (_ & H1 & _ & H2 & H3).
  - unfold as_intr. now rewrite H1.
  - now rewrite H2.
  - unfold flen in H3. destruct x as [| | | | | | | | | |[|[? ?] ?]| | | | |], y as [| | | | | | | | | |[|[? ?] ?]| | | | |]; try reflexivity; try (now rewrite H3); try (rewrite <- H3; reflexivity); rewrite H3; reflexivity.
Qed.
Fixpoint fdeps (fs : fields) : list string :=
  match fs with
  | FNil => []
  | FCons _ c fs' | FDefault _ c _ fs' => deps c ++ fdeps fs'
  | FRebuild _ e c fs' => edeps e ++ deps c ++ fdeps fs'
  | FPad _ _ fs' => fdeps fs'
  | FStopIf k fs' => k :: fdeps fs'
  | FBits _ bs fs' => fdeps bs ++ fdeps fs'
  end.

(** *** The relation *)
Definition fails (c : con) (v : val) : Prop := forall ctx, exists e, build c ctx v = Err e.
Definition works (c : con) (v : val) : Prop := forall ctx, exists s, build c ctx v = Ok s.
Definition both (P : val -> val -> Prop) (o o' : option val) : Prop :=
  match o, o' with Some a, Some b => P a b | None, None => True | _, _ => False end.
(** the value of a sensor setting: of a property, never leading to the fall back to raw bytes, or raw bytes *)
Definition rcs (z : Z) (cs : cases) (a b : val) (P : Prop) : Prop :=
  match find_case z cs with Some _ => P /\ (forall ctx, build_case z cs ctx a <> Err EKey) | None => to_bytes a = to_bytes b end.
Fixpoint rc (c : con) (v x : val) {struct c} : Prop :=
  match c with
  | CInt _ _ | CBytesInt _ _ | CBits _ _ | COpcode _ => as_int v = as_int x
  | CFlag => truthy v = truthy x
  | CIeee _ | CBytes _ | CGreedyBytes | CGreedyString | CPaddedString _ | CPascalString | CPrefixedBytes => v = x
  | CPrefixedArray c1 | CArray _ c1 | CGreedyRange c1 => exists l l', iter v = Some l /\ iter x = Some l' /\ Forall2 (rc c1) l l'
  | CStruct fs => exists d d', v = VDict d /\ x = VDict d' /\ distinct (names fs) = true /\
      (forall k, In k (names fs) -> hidden k = false) /\ (forall k, In k (fdeps fs) -> hidden k = false) /\ rctx (fdeps fs) d d' /\ rcf fs d d'
  | CBitwise c1 | CBytewise c1 | CReversed _ c1 | CIfDefault _ c1 _ => rc c1 v x
  | CAdapt a c1 => encode a v = encode a x /\ deps c1 = []
  | CSelect l => rca l v x
  | CNamed n c1 => exists d d', v = VDict d /\ x = VDict d' /\ dget n d = None /\
      match dget n d' with Some y => rc c1 v y | None => rc c1 v x end
  | CSwitch _ _ => False
  | CEnumSwitchStruct _ cs => exists d d', v = VDict d /\ x = VDict d' /\
      forall z n c', find_case z cs = Some (n, c') -> both (rck z cs) (dget (lower n) d) (dget (lower n) d')
  | CSwitchStruct k kc t sw cs => exists d d' kv kv' z n a b, v = VDict d /\ x = VDict d' /\
      dget k d = Some kv /\ dget k d' = Some kv' /\ int_key kv = Some z /\ int_key kv' = Some z /\ by_value t z = Some (VEnum n z) /\
      dget (lower n) d = Some a /\ dget (lower n) d' = Some b /\ rck z cs a b /\ deps kc = [] /\ ~ In sw (depsk cs)
  | CProp hdr t cs => rc hdr v x /\ exists d d' kv kv' z n a b, v = VDict d /\ x = VDict d' /\
      dget "property_id" d = Some kv /\ dget "property_id" d' = Some kv' /\ int_key kv = Some z /\ int_key kv' = Some z /\ by_value t z = Some (VEnum n z) /\
      dget (lower n) d = Some a /\ dget (lower n) d' = Some b /\ rck z cs a b
  | CSensorSetting hdr t cs => rc hdr v x /\ exists d d' kv kv' z a b, v = VDict d /\ x = VDict d' /\
      dget sid_name d = Some kv /\ dget sid_name d' = Some kv' /\ int_key kv = Some z /\ int_key kv' = Some z /\ (by_value t z = None -> kv = kv') /\
      dget (snd (setting_id t kv)) d = Some a /\ dget (snd (setting_id t kv)) d' = Some b /\ rcs z cs a b (rck z cs a b)
  | CSensorData t cs => exists d d' kv kv' z a b, v = VDict d /\ x = VDict d' /\
      dget sid_name d = Some kv /\ dget sid_name d' = Some kv' /\ as_int kv = Some z /\ as_int kv' = Some z /\
      both rval (dget "format" d) (dget "format" d') /\ both rval (dget "length" d) (dget "length" d') /\
      dget (snd (setting_id t kv)) d = Some a /\ dget (snd (setting_id t kv)) d' = Some b /\ rcs z cs a b (rck z cs a b)
  end
with rcf (fs : fields) (d d' : dict) {struct fs} : Prop :=
  match fs with
  | FNil => True
  | FCons k c fs' => both (rc c) (dget k d) (dget k d') /\ rcf fs' d d'
  | FDefault k c _ fs' => (exists a b, dget k d = Some a /\ dget k d' = Some b /\ a <> VNone /\ b <> VNone /\ rc c a b) /\ rcf fs' d d'
  | FRebuild _ _ c fs' => deps c = [] /\ rcf fs' d d'
  | FPad k _ fs' => match k with Some j => hidden j = true | None => True end /\ rcf fs' d d'
  | FStopIf _ _ => False
  | FBits _ bs fs' => rcf bs d d' /\ rcf fs' d d'
  end
with rck (z : Z) (cs : cases) (a b : val) {struct cs} : Prop :=
  match cs with
  | KNil => True
  | KCons _ w c cs' => if z =? w then rc c a b else rck z cs' a b
  end
with rca (l : alts) (v x : val) {struct l} : Prop :=
  match l with
  | ANil => True
  | ACons c l' => (rc c v x /\ (works c v \/ rca l' v x)) \/ (fails c v /\ fails c x /\ rca l' v x)
  end.

(** *** Building from either gives the same bytes *)
Lemma as_intr_eq v x : as_int v = as_int x -> as_intr v = as_intr x.
Proof. unfold as_intr. now intros ->. Qed.
Lemma build_list_rel p q l l' : Forall2 (fun a b => p a = q b) l l' -> build_list p l = build_list q l'.
Proof. induction 1 as [|a b l l' E _ IH]; [reflexivity|]. cbn [build_list]. now rewrite E, IH. Qed.
Lemma f2_imp {A B} (P Q : A -> B -> Prop) l l' : (forall a b, P a b -> Q a b) -> Forall2 P l l' -> Forall2 Q l l'.
Proof. intros H. induction 1; constructor; auto. Qed.
Lemma f2_len {A B} (P : A -> B -> Prop) l l' : Forall2 P l l' -> length l = length l'.
Proof. induction 1; cbn [length]; congruence. Qed.
Lemma setting_eq t kv kv' z : int_key kv = Some z -> int_key kv' = Some z -> (by_value t z = None -> kv = kv') -> setting_id t kv = setting_id t kv'.
Proof.
  intros H1 H2 H. unfold setting_id. rewrite H1, H2. destruct (by_value t z) as [m|] eqn:E; [|now rewrite H].
  destruct (by_value_enum _ _ _ E) as (n & -> & _). reflexivity.
Qed.
Lemma setting_key t kv z : int_key kv = Some z -> int_key (fst (setting_id t kv)) = Some z.
Proof.
  intros H. unfold setting_id. rewrite H. destruct (by_value t z) as [m|] eqn:E; [|exact H]. destruct (by_value_enum _ _ _ E) as (n & -> & _). reflexivity.
Qed.
Definition Pc (c : con) : Prop := forall v x ctx ctx', rc c v x -> rctx (deps c) ctx ctx' -> build c ctx v = build c ctx' x.
Definition Pf (fs : fields) : Prop := forall d d' ks ctx ctx' obj obj', rcf fs d d' -> distinct (names fs) = true ->
  (forall k, In k (names fs) -> hidden k = false) -> (forall k, In k ks -> hidden k = false) ->
  (forall k, In k (names fs) -> dget k obj = dget k d /\ dget k obj' = dget k d') ->
  (forall k, In k (names fs) -> dget k ctx = dget k d /\ dget k ctx' = dget k d') ->
  rctx ks ctx ctx' -> rctx ks d d' -> incl (fdeps fs) ks -> build_fields fs ctx obj = build_fields fs ctx' obj'.
Definition Pk (cs : cases) : Prop := forall z a b ctx ctx', rck z cs a b -> rctx (depsk cs) ctx ctx' -> build_case z cs ctx a = build_case z cs ctx' b.
Definition Pa (l : alts) : Prop := forall v x ctx ctx', rca l v x -> rctx (depsa l) ctx ctx' -> build_alts l ctx v = build_alts l ctx' x.
Lemma list_build c l l' ctx ctx' : Pc c -> rctx (deps c) ctx ctx' -> Forall2 (rc c) l l' -> build_list (build c ctx) l = build_list (build c ctx') l'.
Proof. intros IH R F. apply build_list_rel. eapply f2_imp; [|exact F]. intros a b H. now apply IH. Qed.
Lemma rctx_dset ks a b k x y : rctx ks a b -> (In k ks -> rval x y) -> rctx ks (dset k x a) (dset k y b).
Proof.
  intros R H j Hj. destruct (string_dec j k) as [->|N]; [rewrite !dget_dset_eq; now apply H|]. rewrite !dget_dset_neq by exact N. now apply R.
Qed.
Lemma rctx_get ks d d' k a b : rctx ks d d' -> dget k d = Some a -> dget k d' = Some b -> In k ks -> rval a b.
Proof. intros R E E' Hk. specialize (R k Hk). now rewrite E, E' in R. Qed.
Lemma dset_agree k x ctx d fs : (forall j, In j (k :: names fs) -> dget j ctx = dget j d) -> dget k d = Some x -> forall j, In j (names fs) -> dget j (dset k x ctx) = dget j d.
Proof. intros H E j Hj. destruct (string_dec j k) as [->|N]; [now rewrite dget_dset_eq|]. rewrite dget_dset_neq by exact N. apply H. now right. Qed.
Lemma next_agree k x y ctx ctx' (d d' : dict) fs : (forall j, In j (k :: names fs) -> dget j ctx = dget j d /\ dget j ctx' = dget j d') -> smem k (names fs) = false ->
  forall j, In j (names fs) -> dget j (dset k x ctx) = dget j d /\ dget j (dset k y ctx') = dget j d'.
Proof. intros H N j Hj. assert (j <> k) by (intros ->; now apply existsb_string in N). rewrite !dget_dset_neq by assumption. apply H. now right. Qed.
Lemma err_eq {A} (r r' : res A) : r = r' -> forall B (f g : A -> res B), (forall a, f a = g a) -> bind r f = bind r' g.
Proof. intros -> B f g H. destruct r'; cbn [bind]; auto. Qed.
Lemma default_ne a df k obj : dget k obj = Some a -> a <> VNone -> match dgetn k obj with VNone => df | y => y end = a.
Proof. unfold dgetn. intros ->. destruct a; congruence || reflexivity. Qed.
Lemma recode_mut : (forall c, Pc c) /\ (forall fs, Pf fs) /\ (forall cs, Pk cs) /\ (forall l, Pa l).
Proof.
  apply con_mutind.
  - intros n sg v x ctx ctx' H R. cbn [build rc] in *. now rewrite (as_intr_eq _ _ H).
  - intros n sw v x ctx ctx' H R. cbn [build rc] in *. now rewrite (as_intr_eq _ _ H).
  - intros n sg v x ctx ctx' H R. cbn [build rc] in *. now rewrite (as_intr_eq _ _ H).
  - intros v x ctx ctx' H R. cbn [build rc] in *. now rewrite H.
  - intros n v x ctx ctx' H R. cbn [rc] in H. now subst.
  - intros n v x ctx ctx' H R. cbn [rc] in H. now subst.
  - intros v x ctx ctx' H R. cbn [rc] in H. now subst.
  - intros v x ctx ctx' H R. cbn [rc] in H. now subst.
  - intros e v x ctx ctx' H R. cbn [rc deps] in *. subst x. cbn [build]. now rewrite (eval_rctx _ _ _ R).
  - intros v x ctx ctx' H R. cbn [rc] in H. now subst.
  - intros v x ctx ctx' H R. cbn [rc] in H. now subst.
  - intros c IH v x ctx ctx' H R. cbn [rc deps] in *. destruct H as (l & l' & E & E' & F). cbn [build]. rewrite E, E', (f2_len _ _ _ F). now rewrite (list_build c l l' ctx ctx' IH R F).
  - intros e c IH v x ctx ctx' H R. cbn [rc deps] in *. destruct H as (l & l' & E & E' & F). apply rctx_app in R as [R1 R2]. cbn [build]. rewrite E, E', (f2_len _ _ _ F), (eval_rctx _ _ _ R1).
    now rewrite (list_build c l l' ctx ctx' IH R2 F).
  - intros c IH v x ctx ctx' H R. cbn [rc deps] in *. destruct H as (l & l' & E & E' & F). cbn [build]. rewrite E, E'. now apply list_build.
  - (* CStruct *) intros fs IH v x ctx ctx' H R. cbn [rc] in H. destruct H as (d & d' & -> & -> & D & V & V' & Rd & F). cbn [build as_dict bind].
    apply (IH d d' (fdeps fs)); auto. apply incl_refl.
  - intros c IH v x ctx ctx' H R. cbn [rc deps] in *. cbn [build]. now rewrite (IH v x ctx ctx' H R).
  - intros c IH v x ctx ctx' H R. cbn [rc deps] in *. cbn [build]. now rewrite (IH v x ctx ctx' H R).
  - intros n c IH v x ctx ctx' H R. cbn [rc deps] in *. cbn [build]. now rewrite (IH v x ctx ctx' H R).
  - (* CAdapt *) intros a c IH v x ctx ctx' H R. cbn [rc deps] in *. destruct H as [H Hd]. cbn [build]. rewrite H. apply err_eq; [reflexivity|]. intros w. apply build_agree. rewrite Hd. apply agree_nil.
  - intros l IH v x ctx ctx' H R. cbn [rc deps] in *. cbn [build]. now apply IH.
  - (* CNamed *) intros n c IH v x ctx ctx' H R. cbn [rc deps] in *. destruct H as (d & d' & -> & -> & N & H). cbn [build]. rewrite N. destruct (dget n d') as [y|]; now apply IH.
  - intros k cs IH v x ctx ctx' [].
  - (* CEnumSwitchStruct *) intros k cs IH v x ctx ctx' H R. cbn [rc deps] in *. destruct H as (d & d' & -> & -> & H). apply rctx_cons in R as [Rk R]. cbn [build]. unfold dgetr.
    destruct (dget k ctx) as [kv|], (dget k ctx') as [kv'|]; try contradiction; [|reflexivity]. cbn [bind]. destruct Rk as (E & _). rewrite E. destruct (int_key kv') as [z|]; [|reflexivity].
    destruct (find_case z cs) as [[n c']|] eqn:Ef; [|reflexivity]. specialize (H z n c' Ef). destruct (dget (lower n) d) as [a|], (dget (lower n) d') as [b|]; try contradiction; [|reflexivity]. cbn [bind]. now apply IH.
  - (* CIfDefault *) intros k c IH df v x ctx ctx' H R. cbn [rc deps] in *. apply rctx_cons in R as [Rk R]. cbn [build]. unfold dgetr.
    destruct (dget k ctx) as [kv|], (dget k ctx') as [kv'|]; try contradiction; [|reflexivity]. cbn [bind]. destruct Rk as (_ & _ & E & _). rewrite E. destruct (truthy kv'); [now apply IH|reflexivity].
  - intros t v x ctx ctx' H R. cbn [build rc] in *. now rewrite (as_intr_eq _ _ H).
  - (* CSwitchStruct *) intros k kc IHk t sw cs IH v x ctx ctx' H R. cbn [rc] in H. destruct H as (d & d' & kv & kv' & z & n & a & b & -> & -> & E1 & E2 & E3 & E4 & B & A1 & A2 & H & Dk & Ns).
    cbn [build]. unfold dgetr. rewrite E1, E2. cbn [bind]. rewrite E3, E4, B, A1, A2. cbn [bind].
    rewrite (build_agree kc [(k, VEnum n z); (sw, a)] [(k, VEnum n z); (sw, b)]) by (rewrite Dk; apply agree_nil).
    apply err_eq; [reflexivity|]. intros l. erewrite IH; [reflexivity | exact H|]. intros j Hj. cbn [dget]. destruct (String.eqb j k); [apply rval_refl|].
    destruct (String.eqb_spec j sw) as [->|]; [contradiction | exact I].
  - (* CProp *) intros hdr IHh t cs IH v x ctx ctx' H R. cbn [rc deps] in *. apply rctx_app in R as [R1 R2]. destruct H as (Hh & d & d' & kv & kv' & z & n & a & b & -> & -> & E1 & E2 & E3 & E4 & B & A1 & A2 & H).
    cbn [build]. rewrite (IHh _ _ ctx ctx' Hh R1). apply err_eq; [reflexivity|]. intros l. unfold dgetr, dgetn. rewrite E1, E2. cbn [bind]. rewrite E3, E4, B, A1, A2.
    destruct (find_case z cs); [|reflexivity]. now rewrite (IH z a b ctx ctx' H R2).
  - (* CSensorSetting *) intros hdr IHh t cs IH v x ctx ctx' H R. cbn [rc deps] in *. apply rctx_app in R as [R1 R2].
    destruct H as (Hh & d & d' & kv & kv' & z & a & b & -> & -> & E1 & E2 & E3 & E4 & Eq & A1 & A2 & H).
    cbn [build]. rewrite (IHh _ _ ctx ctx' Hh R1). apply err_eq; [reflexivity|]. intros l. unfold dgetr. rewrite E1, E2. cbn [bind].
    pose proof (setting_key t kv z E3) as K. rewrite <- (setting_eq t kv kv' z E3 E4 Eq). destruct (setting_id t kv) as [idv nm]. cbn [fst snd] in *. rewrite A1, A2, K. unfold rcs in H.
    destruct (find_case z cs); [|now rewrite H]. destruct H as [H Hk]. rewrite <- (IH z a b ctx ctx' H R2). specialize (Hk ctx). destruct (build_case z cs ctx a) as [q|[]|]; reflexivity || contradiction.
  - (* CSensorData *) intros t cs IH v x ctx ctx' H R. cbn [rc deps] in *.
    destruct H as (d & d' & kv & kv' & z & a & b & -> & -> & E1 & E2 & E3 & E4 & Ef & El & A1 & A2 & H).
    cbn [build]. unfold geti, dgetr. rewrite E1, E2. cbn [bind]. destruct (dget "format" d) as [f|], (dget "format" d') as [f'|]; try contradiction; [|reflexivity]. cbn [bind both] in *.
    destruct (dget "length" d) as [n|], (dget "length" d') as [n'|]; try contradiction; [|reflexivity]. cbn [bind both] in *.
    destruct Ef as (_ & _ & Ef & _). destruct El as (_ & El & _). rewrite Ef, (as_intr_eq n n' El). unfold as_intr at 2 4. rewrite E3, E4. apply err_eq; [reflexivity|]. intros len. cbn [bind]. apply err_eq; [reflexivity|]. intros l.
    assert (S : snd (setting_id t kv) = snd (setting_id t kv')).
    { unfold setting_id. rewrite (int_key_as_int _ _ E3), (int_key_as_int _ _ E4). destruct (by_value t z) as [m|] eqn:B; [|reflexivity]. destruct (by_value_enum _ _ _ B) as (nm & -> & _). reflexivity. }
    destruct (setting_id t kv) as [idv nm], (setting_id t kv') as [idv' nm']. cbn [snd] in *. subst nm'. rewrite A1, A2. unfold rcs in H.
    destruct (find_case z cs); [|now rewrite H]. destruct H as [H Hk]. rewrite <- (IH z a b ctx ctx' H R). specialize (Hk ctx). destruct (build_case z cs ctx a) as [q|[]|]; reflexivity || contradiction.
  - (* FNil *) intros d d' ks ctx ctx' obj obj' H. reflexivity.
  - (* FCons *) intros k c IHc fs IH d d' ks ctx ctx' obj obj' H D V V' Ho Hc Rc Rd I. cbn [rcf names distinct fdeps] in *. destruct H as [Hk H]. apply andb_prop in D as [D1 D2]. apply negb_true_iff in D1.
    apply incl_app_inv in I as [I1 I2]. cbn [build_fields]. unfold dgetr. destruct (Ho k (or_introl eq_refl)) as [-> ->].
    destruct (dget k d) as [a|] eqn:Ea, (dget k d') as [b|] eqn:Eb; try contradiction; [|reflexivity]. cbn [bind both] in *.
    rewrite (IHc a b ctx ctx' Hk (rctx_incl _ _ _ _ I1 Rc)). apply err_eq; [reflexivity|]. intros l. rewrite (IH d d' ks (dset k a ctx) (dset k b ctx') obj obj' H D2); [reflexivity | | exact V' | | | | exact Rd | exact I2].
    + intros j Hj. apply V. now right.
    + intros j Hj. apply Ho. now right.
    + now apply next_agree.
    + apply rctx_dset; [exact Rc|]. now apply (rctx_get ks d d').
  - (* FDefault *) intros k c IHc df fs IH d d' ks ctx ctx' obj obj' H D V V' Ho Hc Rc Rd I. cbn [rcf names distinct fdeps] in *. destruct H as [(a & b & Ea & Eb & Na & Nb & Hk) H]. apply andb_prop in D as [D1 D2]. apply negb_true_iff in D1.
    apply incl_app_inv in I as [I1 I2]. cbn [build_fields]. destruct (Ho k (or_introl eq_refl)) as [Hoa Hob]. rewrite <- Hoa in Ea. rewrite <- Hob in Eb.
    rewrite (default_ne a df k obj Ea Na), (default_ne b df k obj' Eb Nb). cbv zeta. rewrite Hoa in Ea. rewrite Hob in Eb.
    rewrite (IHc a b ctx ctx' Hk (rctx_incl _ _ _ _ I1 Rc)). apply err_eq; [reflexivity|]. intros l. rewrite (IH d d' ks (dset k a ctx) (dset k b ctx') obj obj' H D2); [reflexivity | | exact V' | | | | exact Rd | exact I2].
    + intros j Hj. apply V. now right.
    + intros j Hj. apply Ho. now right.
    + now apply next_agree.
    + apply rctx_dset; [exact Rc|]. now apply (rctx_get ks d d').
  - (* FRebuild *) intros k e c IHc fs IH d d' ks ctx ctx' obj obj' H D V V' Ho Hc Rc Rd I. cbn [rcf names distinct fdeps] in *. destruct H as [Hdc H]. apply andb_prop in D as [D1 D2]. apply negb_true_iff in D1.
    apply incl_app_inv in I as [I1 I2]. apply incl_app_inv in I2 as [I2 I3]. cbn [build_fields]. rewrite (eval_rctx e ctx ctx' (rctx_incl _ _ _ _ I1 Rc)). apply err_eq; [reflexivity|]. intros n.
    replace (build c ctx (VInt n)) with (build c ctx' (VInt n)) by (apply build_agree; rewrite Hdc; apply agree_nil).
    apply err_eq; [reflexivity|]. intros l. rewrite (IH d d' ks (dset k (VInt n) ctx) (dset k (VInt n) ctx') obj obj' H D2); [reflexivity | | exact V' | | | | exact Rd | exact I3].
    + intros j Hj. apply V. now right.
    + intros j Hj. apply Ho. now right.
    + now apply next_agree.
    + apply rctx_dset; [exact Rc|]. intros _. apply rval_refl.
  - (* FPad *) intros k n fs IH d d' ks ctx ctx' obj obj' H D V V' Ho Hc Rc Rd I. cbn [rcf names fdeps] in *. destruct H as [Hk H]. cbn [build_fields]. destruct k as [k|].
    + rewrite (IH d d' ks (dset k (dgetn k obj) ctx) (dset k (dgetn k obj') ctx') obj obj' H D); [reflexivity | exact V | exact V' | exact Ho | | | exact Rd | exact I].
      * intros j Hj. assert (j <> k) by (intros ->; specialize (V _ Hj); congruence). rewrite !dget_dset_neq by assumption. now apply Hc.
      * apply rctx_dset; [exact Rc|]. intros Hin. specialize (V' _ Hin). congruence.
    + rewrite (IH d d' ks ctx ctx' obj obj' H D); auto.
  - intros k fs IH d d' ks ctx ctx' obj obj' [].
  - (* FBits *) intros n bs IHb fs IH d d' ks ctx ctx' obj obj' H D V V' Ho Hc Rc Rd I. cbn [rcf names fdeps] in *. destruct H as [Hb H]. apply distinct_app in D as (D1 & D2 & _). apply incl_app_inv in I as [I1 I2].
    cbn [build_fields]. rewrite (IHb d d' ks ctx ctx' ctx ctx' Hb D1); [| | exact V' | | | exact Rc | exact Rd | exact I1]; try (intros j Hj; solve [apply V; apply in_or_app; now left | apply Hc; apply in_or_app; now left]).
    apply err_eq; [reflexivity|]. intros bits. destruct (bits2bytes bits) as [l [|]]; [|reflexivity]. rewrite (IH d d' ks ctx ctx' obj obj' H D2); auto.
    + intros j Hj. apply V, in_or_app. now right.
    + intros j Hj. apply Ho, in_or_app. now right.
    + intros j Hj. apply Hc, in_or_app. now right.
  - intros z a b ctx ctx' H R. reflexivity.
  - intros n w c IHc cs IH z a b ctx ctx' H R. cbn [rck depsk build_case] in *. apply rctx_app in R as [R1 R2]. destruct (z =? w); [now apply IHc | now apply IH].
  - intros v x ctx ctx' H R. reflexivity.
  - intros c IHc l IH v x ctx ctx' H R. cbn [rca depsa build_alts] in *. apply rctx_app in R as [R1 R2]. destruct H as [(Hc & H) | (F1 & F2 & H)].
    + rewrite (IHc v x ctx ctx' Hc R1). destruct H as [W | H].
      * destruct (W ctx) as (s & E). rewrite (IHc v x ctx ctx' Hc R1) in E. now rewrite E.
      * now rewrite (IH v x ctx ctx' H R2).
    + destruct (F1 ctx) as (e & ->). destruct (F2 ctx') as (e' & ->). now apply IH.
Qed.

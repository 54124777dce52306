(** * Master: the round-trip theorem for every declaration.

    [roundtrip]: for a well-formed declaration, every conforming object is built,
    and parsing what was built, followed by anything, returns the public form
    prescribed by Spec.v and leaves exactly what followed. *)
From Verif Require Import PyVal Bits Utf8 Adapters Construct Size Spec.

(** ** Well-formed declarations (a boolean check, run on every message) *)
Definition vis (k : string) : bool := negb (hidden k).
Definition vis_enum (t : enum) : bool := forallb (fun p => vis (lower (fst p))) t.
Fixpoint vis_cases (cs : cases) : bool :=
  match cs with KNil => true | KCons n _ _ cs' => vis (lower n) && vis_cases cs' end.
Definition vis_expr (e : expr) : bool :=
  match e with EConst _ => true | EGet k => vis k | _ => false end.
(** the names bound by the fields of an EmbeddedBitStruct; None if it is not a
    plain sequence of fields *)
Fixpoint bit_names (fs : fields) : option (list string) :=
  match fs with
  | FNil => Some []
  | FCons k _ fs' | FDefault k _ _ fs' | FRebuild k _ _ fs' | FPad (Some k) _ fs' =>
      match bit_names fs' with Some l => Some (k :: l) | None => None end
  | FPad None _ fs' => bit_names fs'
  | FStopIf _ _ | FBits _ _ _ => None
  end.
Fixpoint distinct (l : list string) : bool :=
  match l with [] => true | k :: l' => negb (existsb (String.eqb k) l') && distinct l' end.
Definition flat_bits (fs : fields) : bool :=
  match bit_names fs with Some l => distinct l | None => false end.

(** [m = true]: inside Bitwise, the units are bits *)
Fixpoint wf (m : bool) (c : con) : bool :=
  match c with
  | CInt n _ => negb m && Nat.ltb 0 n
  | CBytesInt _ _ | CIeee _ | CBytes _ | CGreedyBytes | CGreedyString | CPascalString | CPrefixedBytes => negb m
  | CPaddedString e => negb m && vis_expr e
  | CBits n _ => m && Nat.ltb 0 n
  | CFlag => true
  | CPrefixedArray c1 => negb m && wf m c1
  | CArray e c1 => vis_expr e && wf m c1
  | CGreedyRange c1 => wf m c1 && prod c1 && Nat.ltb 0 (minsz c1)
  | CStruct fs => wff m fs
  | CBitwise c1 => negb m && wf true c1 && wholeb c1
  | CBytewise c1 => m && wf false c1
  | CReversed n c1 => wf m c1 && match fsz c1 with Some k => Nat.eqb k n | None => false end
  | CAdapt _ c1 | CNamed _ c1 => wf m c1
  | CSelect l => wfa m l
  | CSwitch k cs => vis k && wfk m cs
  | CEnumSwitchStruct k cs => vis k && vis_cases cs && wfk m cs
  | CIfDefault k c1 d => vis k && wf m c1 && match d with VInt _ => true | _ => false end
  | COpcode _ => negb m
  | CSwitchStruct k kc t _ cs => negb m && vis k && vis_enum t && wf m kc && wfk m cs
  | CProp hdr t cs | CSensorSetting hdr t cs => negb m && vis_enum t && wf m hdr && wfk m cs
  | CSensorData t cs => negb m && vis_enum t && wfk m cs
  end
with wff (m : bool) (fs : fields) : bool :=
  match fs with
  | FNil => true
  | FCons k c fs' | FDefault k c _ fs' | FRebuild k _ c fs' => vis k && wf m c && wff m fs'
  | FPad _ _ fs' => wff m fs'
  | FStopIf k fs' => vis k && wff m fs'
  | FBits n bs fs' =>
      negb m && wff true bs && flat_bits bs
      && match fszf bs with Some k => Nat.eqb k (8 * n) | None => false end && wff m fs'
  end
with wfk (m : bool) (cs : cases) : bool :=
  match cs with KNil => true | KCons _ _ c cs' => wf m c && wfk m cs' end
with wfa (m : bool) (l : alts) : bool :=
  match l with ANil => true | ACons c l' => wf m c && prod c && wfa m l' end.

Definition unit_ok (m : bool) (b : Z) : Prop := if m then isbit b else isbyte b.
Definition units (m : bool) (s : list Z) : Prop := Forall (unit_ok m) s.

Lemma units_app m a b : units m a -> units m b -> units m (a ++ b).
Proof. intros; apply Forall_app; auto. Qed.
Lemma units_nil m : units m []. Proof. constructor. Qed.
Lemma units_zeros m n : units m (repeat 0 n).
Proof. induction n; simpl; constructor; auto. destruct m; [left; reflexivity | unfold unit_ok, isbyte; lia]. Qed.

(** ** The public view *)
Lemma vis_hidden k : vis k = true -> hidden k = false.
Proof. unfold vis. now destruct (hidden k). Qed.

Lemma pubd_dset k x d : hidden k = false -> pubd (dset k x d) = dset k (pub x) (pubd d).
Proof.
  intros Hk. induction d as [|[k' y] d IH]; simpl.
  - now rewrite Hk.
  - destruct (String.eqb_spec k k') as [<-|Hn]; simpl.
    + rewrite Hk. simpl. now rewrite String.eqb_refl.
    + destruct (hidden k'); [exact IH|]. simpl. destruct (String.eqb_spec k k'); [congruence|]. now rewrite IH.
Qed.

Lemma pubd_dset_hidden k x d : hidden k = true -> pubd (dset k x d) = pubd d.
Proof.
  intros Hk. induction d as [|[k' y] d IH]; simpl.
  - now rewrite Hk.
  - destruct (String.eqb_spec k k') as [<-|Hn]; simpl; [now rewrite Hk|].
    destruct (hidden k'); [exact IH | now rewrite IH].
Qed.

Lemma pubd_ddel k d : hidden k = false -> pubd (ddel k d) = ddel k (pubd d).
Proof.
  intros Hk. induction d as [|[k' y] d IH]; simpl; [reflexivity|].
  destruct (String.eqb_spec k k') as [<-|Hn].
  - rewrite Hk. simpl. now rewrite String.eqb_refl.
  - simpl. destruct (hidden k'); [exact IH|]. simpl. destruct (String.eqb_spec k k'); [congruence|]. now rewrite IH.
Qed.

Lemma as_int_pub v : as_int (pub v) = as_int v.
Proof. destruct v; reflexivity. Qed.
Lemma int_key_pub v : int_key (pub v) = int_key v.
Proof. destruct v; reflexivity. Qed.
Lemma num_of_pub v : num_of (pub v) = num_of v.
Proof. destruct v; reflexivity. Qed.
Lemma int_key_as_int v z : as_int v = Some z -> int_key v = Some z.
Proof. destruct v; simpl; auto; discriminate. Qed.
Lemma truthy_int v z : as_int v = Some z -> truthy v = negb (z =? 0).
Proof. destruct v as [|b| | | | | | | | | | | | | | ]; simpl; try discriminate; intros [= <-]; auto. now destruct b. Qed.
Lemma pub_enum v n z : pub v = VEnum n z -> v = VEnum n z.
Proof. destruct v; simpl; congruence. Qed.
Lemma pub_int v z : pub v = VInt z -> v = VInt z.
Proof. destruct v; simpl; congruence. Qed.
Lemma pub_dict_inv v d : pub v = VDict d -> exists d0, v = VDict d0 /\ pubd d0 = d.
Proof. destruct v; try discriminate. rewrite pub_dict. intros [= <-]. eauto. Qed.

Lemma dget_ctx k ctx ep x : hidden k = false -> pubd ctx = ep -> dget k ep = Some x ->
  exists y, dget k ctx = Some y /\ pub y = x.
Proof.
  intros Hk <- H. rewrite dget_pubd in H by exact Hk. destruct (dget k ctx); simpl in H; [|discriminate].
  injection H as <-. eauto.
Qed.

Lemma eval_is_eval e d n : eval_is e d n -> eval e d = Ok n.
Proof.
  destruct e; simpl.
  - now intros ->.
  - intros (v & H & Hi). unfold dgetr. rewrite H. simpl. unfold as_intr. now rewrite Hi.
  - intros (v & l & H & Hv & ->). unfold dgetr. rewrite H. simpl.
    destruct Hv as [->|[->|(b & -> & ->)]]; simpl; try reflexivity. now rewrite map_length.
  - intros (s & v & l & d' & H & Hv & ->). unfold dgetr. rewrite H. simpl.
    destruct Hv as [->|[->|(b & -> & ->)]]; simpl; try reflexivity. now rewrite map_length.
Qed.

Lemma eval_is_ctx e ctx ep n : vis_expr e = true -> pubd ctx = ep -> eval_is e ep n -> eval e ctx = Ok n.
Proof.
  destruct e; simpl; intros Hv Hc H; try discriminate.
  - now subst.
  - destruct H as (v & H & Hi). destruct (dget_ctx k ctx ep v (vis_hidden _ Hv) Hc H) as (y & Hy & <-).
    unfold dgetr. rewrite Hy. simpl. unfold as_intr. rewrite as_int_pub in Hi. now rewrite Hi.
Qed.

Lemma by_value_enum t z m : by_value t z = Some m -> exists n, m = VEnum n z /\ In (n, z) t.
Proof.
  induction t as [|[n w] t IH]; simpl; [discriminate|].
  destruct (Z.eqb_spec z w) as [->|Hn].
  - intros [= <-]. eauto.
  - intros H. destruct (IH H) as (n' & -> & Hin). eauto.
Qed.
Lemma vis_enum_by_value t z n w : vis_enum t = true -> by_value t z = Some (VEnum n w) -> hidden (lower n) = false.
Proof.
  intros Hv H. apply by_value_enum in H as (n' & E & Hin). injection E as -> ->.
  unfold vis_enum in Hv. rewrite forallb_forall in Hv. specialize (Hv _ Hin). now apply vis_hidden.
Qed.
Lemma vis_find_case cs z n c : vis_cases cs = true -> find_case z cs = Some (n, c) -> hidden (lower n) = false.
Proof.
  induction cs as [|n' w c' cs' IH]; simpl; [discriminate|]. intros Hv H. apply andb_prop in Hv as [H1 H2].
  destruct (z =? w); [injection H as <- <-; now apply vis_hidden | auto].
Qed.

(** ** Integers *)
Lemma fits_le_roundtrip n sg z : (0 < n)%nat -> fits (8 * Z.of_nat n) sg z ->
  (int_min n sg <=? z) && (z <=? int_max n sg) = true /\ int_of n sg (to_le n z) = z.
Proof.
  intros Hn H. unfold fits, int_min, int_max, int_of in *. split.
  - apply andb_true_intro; split; apply Z.leb_le; destruct sg; lia.
  - rewrite of_to_le, pow256_2. destruct sg; [apply signed_roundtrip; lia | apply Z.mod_small; lia].
Qed.

Lemma to_le_units n z : units false (to_le n z).
Proof. apply to_le_bytes. Qed.

Lemma ndigits_small n z : 0 <= z < 256 ^ Z.of_nat n -> (ndigits z <= n)%nat.
Proof.
  intros H. unfold ndigits. destruct (Z.eqb_spec z 0); [lia|].
  assert (Hl : Z.log2 z < 8 * Z.of_nat n) by (apply Z.log2_lt_pow2; [lia | rewrite <- pow256_2; lia]).
  pose proof (Z.log2_nonneg z).
  assert (Z.log2 z / 8 < Z.of_nat n) by (apply Z.div_lt_upper_bound; lia).
  assert (0 <= Z.log2 z / 8) by (apply Z.div_pos; lia). lia.
Qed.

Lemma integer2bytes_small n z : 0 <= z < 2 ^ (8 * Z.of_nat n) -> integer2bytes n z = Ok (to_le n z).
Proof.
  rewrite <- pow256_2. intros H. pose proof (ndigits_small n z H) as Hn.
  unfold integer2bytes. destruct (Nat.leb_spec (ndigits z) (2 * n)); [|lia].
  replace (ndigits z - n)%nat with 0%nat by lia. reflexivity.
Qed.

(** ** Lists *)
Section Lists.
  Variables (m : bool) (ep : dict) (b : val -> res (list Z)) (p : dict -> list Z -> res (val * list Z))
            (R : bool -> val -> val -> Prop).

  Lemma conf_list_len dl l l' : conf_list R dl l l' -> length l = length l'.
  Proof.
    revert l'; induction l as [|x l IH]; destruct l' as [|x' l']; simpl; try tauto.
    intros [_ H]. f_equal. auto.
  Qed.

  Hypothesis HR : forall dl x x', R dl x x' ->
    exists s, b x = Ok s /\ units m s /\
      forall rest ctx, units m rest -> (dl = false -> rest = []) -> pubd ctx = ep ->
        exists u, p ctx (s ++ rest) = Ok (u, rest) /\ pub u = x'.

  Lemma list_build dl l l' : conf_list R dl l l' ->
    exists s, build_list b l = Ok s /\ units m s /\
      forall rest ctx, units m rest -> (dl = false -> rest = []) -> pubd ctx = ep ->
        exists us, times_parse (p ctx) (length l) (s ++ rest) = Ok (us, rest) /\ map pub us = l'.
  Proof.
    revert l'; induction l as [|x l IH]; destruct l' as [|x' l']; try (simpl; tauto).
    - intros _. exists []. simpl. repeat split; [constructor|]. intros rest ctx _ _ _. exists []. auto.
    - intros [Hx Hl]. destruct (IH _ Hl) as (s & Hs & Us & Ps).
      destruct (HR _ _ _ Hx) as (s0 & Hs0 & Us0 & Ps0).
      exists (s0 ++ s). cbn [build_list]. rewrite Hs0. cbn [bind]. rewrite Hs. cbn [bind].
      repeat split; [apply units_app; auto|].
      intros rest ctx Ur Hd Hc. cbn [times_parse length]. rewrite <- app_assoc.
      destruct (Ps0 (s ++ rest) ctx) as (u & Pu & Eu); [| |exact Hc|].
      + apply units_app; auto.
      + destruct l as [|y l2]; [|discriminate]. intros Hf. simpl in Hs. injection Hs as <-. simpl. auto.
      + destruct (Ps rest ctx Ur Hd Hc) as (us & Pus & Eus).
        exists (u :: us). rewrite Pu. cbn [bind]. rewrite Pus. cbn [bind map]. split; [reflexivity|]. now rewrite Eu, Eus.
  Qed.
End Lists.

Lemma greedy_times (p : list Z -> res (val * list Z)) :
  (forall s v r, p s = Ok (v, r) -> (length r < length s)%nat) -> (exists e, p [] = Err e) ->
  forall n s us fuel, times_parse p n s = Ok (us, []) -> (length s < fuel)%nat ->
    greedy p fuel s = Ok (us, []).
Proof.
  intros Hshrink Hempty. induction n as [|n IH]; intros s us fuel H Hf; simpl in H.
  - injection H as <- ->. destruct fuel; [lia|]. simpl. destruct Hempty as [e ->]. reflexivity.
  - bind_inv H. bind_inv H. injection H as <- ->. destruct fuel; [lia|]. simpl. rewrite E.
    pose proof (Hshrink _ _ _ E) as Hl. destruct (Nat.ltb_spec (length l) (length s)); [|lia].
    rewrite (IH _ _ fuel E0) by lia. reflexivity.
Qed.

(** ** Text *)
Lemma strip_nul_last l : last l 1 <> 0 -> strip_nul l = l.
Proof.
  induction l as [|b l IH]; [reflexivity|]. intros H. destruct l as [|c l].
  - simpl in *. destruct (Z.eqb_spec b 0); [congruence|reflexivity].
  - change (last (b :: c :: l) 1) with (last (c :: l) 1) in H. specialize (IH H).
    cbn [strip_nul] in *. rewrite IH. reflexivity.
Qed.
Lemma strip_nul_zeros n : strip_nul (repeat 0 n) = [].
Proof. induction n; simpl; [reflexivity|]. now rewrite IHn. Qed.
Lemma strip_nul_app l n : strip_nul (l ++ repeat 0 n) = strip_nul l.
Proof. induction l as [|b l IH]; simpl; [apply strip_nul_zeros|]. now rewrite IH. Qed.

(** ** EmbeddedBitStruct: copying the named bits *)
Lemma existsb_string k l : existsb (String.eqb k) l = false -> ~ In k l.
Proof.
  intros H Hin. assert (existsb (String.eqb k) l = true); [|congruence].
  apply existsb_exists. exists k. split; [exact Hin | apply String.eqb_refl].
Qed.

Lemma keys_dset k x d : dget k d = None -> keys (dset k x d) = keys d ++ [k].
Proof. intros H. rewrite dset_fresh by exact H. unfold keys. now rewrite map_app. Qed.

(** parsing flat fields binds exactly their names, in order *)
Lemma flat_keys fs : forall names obj s d r, bit_names fs = Some names -> distinct names = true ->
  (forall k, In k names -> dget k obj = None) ->
  parse_fields fs obj s = Ok (d, r) -> exists d1, d = obj ++ d1 /\ keys d1 = names.
Proof.
  induction fs as [|k c fs IH|k c dv fs IH|k e c fs IH|k n fs IH|k fs IH|n bs IHb fs IH];
    intros names obj s d r Hn Hd Hf H; cbn [bit_names] in Hn; try discriminate.
  1: { injection Hn as <-. simpl in H. injection H as <- <-. exists []. now rewrite app_nil_r. }
  4: destruct k as [k|].
  5: { cbn [parse_fields] in H. bind_inv H. eapply IH; eauto. }
  all: destruct (bit_names fs) as [l|]; [|discriminate]; injection Hn as <-;
    cbn [distinct] in Hd; apply andb_prop in Hd as [Hk Hd]; apply negb_true_iff, existsb_string in Hk;
    cbn [parse_fields] in H; bind_inv H;
    (match type of H with parse_fields _ (dset _ ?x _) _ = _ =>
      assert (Hf' : forall k', In k' l -> dget k' (dset k x obj) = None);
      [ intros k' Hk'; rewrite dget_dset_neq by (intros ->; tauto); apply Hf; now right
      | destruct (IH l (dset k x obj) _ _ _ eq_refl Hd Hf' H) as (d1 & -> & Hk1);
        rewrite dset_fresh by (apply Hf; now left); exists ((k, x) :: d1);
        rewrite <- app_assoc; simpl; now rewrite Hk1 ] end).
Qed.

Lemma copy_named_merge fs : forall names bd obj, bit_names fs = Some names -> 
  (forall k, In k names -> dget k bd <> None) ->
  copy_named fs bd obj = fold_left (fun o k => match dget k bd with Some v => dset k v o | None => o end) names obj.
Proof.
  induction fs as [|k c fs IH|k c dv fs IH|k e c fs IH|k n fs IH|k fs IH|n bs IHb fs IH];
    intros names bd obj Hn Hf; cbn [bit_names] in Hn; try discriminate.
  1: { injection Hn as <-. reflexivity. }
  4: destruct k as [k|]; [|cbn [copy_named]; eauto].
  all: destruct (bit_names fs) as [l|]; [|discriminate]; injection Hn as <-; cbn [copy_named fold_left];
    apply IH; auto; intros; apply Hf; now right.
Qed.

Lemma dmerge_keys bd : forall suf o, NoDup (keys bd) -> (exists pre, bd = pre ++ suf) ->
  fold_left (fun o k => match dget k bd with Some v => dset k v o | None => o end) (keys suf) o = dmerge o suf.
Proof.
  intros suf. induction suf as [|[k x] suf IH]; intros o Hd [pre E]; [reflexivity|].
  cbn [keys map fst fold_left dmerge].
  assert (dget k bd = Some x) as ->.
  { subst bd. rewrite dget_app. assert (dget k pre = None) as ->.
    - apply dget_None_in. unfold keys in Hd. rewrite map_app in Hd. simpl in Hd.
      apply NoDup_remove_2 in Hd. rewrite in_app_iff in Hd. tauto.
    - simpl. now rewrite String.eqb_refl. }
  apply IH; [exact Hd|]. exists (pre ++ [(k, x)]). now rewrite <- app_assoc.
Qed.

Lemma pubd_dmerge bd : forall o, pubd (dmerge o bd) = dmerge (pubd o) (pubd bd).
Proof.
  induction bd as [|[k x] bd IH]; intros o; [reflexivity|]. cbn [dmerge pubd].
  rewrite IH. destruct (hidden k) eqn:E; [now rewrite pubd_dset_hidden | cbn [dmerge]; now rewrite pubd_dset].
Qed.

Lemma distinct_NoDup l : distinct l = true -> NoDup l.
Proof.
  induction l as [|k l IH]; simpl; [constructor|]. intros H. apply andb_prop in H as [H1 H2].
  constructor; [apply existsb_string, negb_true_iff, H1 | auto].
Qed.

Lemma copy_bits fs bd s r obj : flat_bits fs = true -> parse_fields fs [] s = Ok (bd, r) ->
  pubd (copy_named fs bd (dset "_" (VDict bd) obj)) = dmerge (pubd obj) (pubd bd).
Proof.
  unfold flat_bits. destruct (bit_names fs) as [names|] eqn:En; [|discriminate]. intros Hd H.
  destruct (flat_keys fs names [] s bd r En Hd ltac:(auto) H) as (d1 & -> & Hk). simpl in *.
  rewrite (copy_named_merge fs names d1 _ En).
  - subst names. rewrite dmerge_keys.
    + rewrite pubd_dmerge. f_equal. apply pubd_dset_hidden. reflexivity.
    + apply distinct_NoDup, Hd.
    + exists []. reflexivity.
  - intros k Hin. subst names. intros E. apply dget_None_in in E. tauto.
Qed.

(** ** Alternatives of a Select *)
Lemma bind_err {A B} (r : res A) (f : A -> res B) : (exists e, r = Err e) -> exists e, bind r f = Err e.
Proof. intros [e ->]. simpl. eauto. Qed.
Lemma bind_err2 {A B} (r : res A) (f : A -> res B) : r <> Diverge -> (forall a, exists e, f a = Err e) -> exists e, bind r f = Err e.
Proof. intros Hd Hf. destruct r; simpl; eauto. congruence. Qed.

Lemma missing_f_err fs : forall ctx obj, missing_f fs obj -> exists e, build_fields fs ctx obj = Err e.
Proof.
  induction fs as [|k c fs IH|k c dv fs IH|k e c fs IH|k n fs IH|k fs IH|n bs IHb fs IH];
    intros ctx obj H; cbn [missing_f] in H; try tauto; cbn [build_fields].
  - unfold dgetr. destruct (dget k obj) as [x|] eqn:E.
    + destruct H as [H|H]; [discriminate|]. cbn [bind]. apply bind_err2; [apply build_nodiv|].
      intros a. apply bind_err. auto.
    + simpl. eauto.
  - apply bind_err2; [apply build_nodiv|]. intros a. apply bind_err. auto.
  - apply bind_err2; [apply eval_nodiv|]. intros n. apply bind_err2; [apply build_nodiv|]. intros a. apply bind_err. auto.
  - apply bind_err. auto.
  - apply bind_err2; [apply build_fields_nodiv|]. intros bits. destruct (bits2bytes bits) as [l [|]]; [|eauto].
    apply bind_err. auto.
Qed.

Lemma missing_err c : forall ctx v, missing c v -> exists e, build c ctx v = Err e.
Proof.
  induction c; intros ctx v H; cbn [missing] in H; try tauto; cbn [build].
  - destruct H as (d & -> & H). simpl. now apply missing_f_err.
  - apply bind_err. auto.
  - apply bind_err. auto.
  - destruct H as (d & -> & H1 & H2). rewrite H1. auto.
Qed.

Lemma parse_fapp a b : nostop a = true -> forall obj s,
  parse_fields (fapp a b) obj s = let* q := parse_fields a obj s in let (d, r) := (q : dict * list Z) in parse_fields b d r.
Proof.
  induction a as [|k c fs IH|k c dv fs IH|k e c fs IH|k n fs IH|k fs IH|n bs IHb fs IH];
    intros H obj s; simpl in H; try discriminate; cbn [fapp parse_fields].
  - reflexivity.
  - destruct (parse c obj s) as [[v r]| |]; simpl; auto.
  - destruct (parse c obj s) as [[v r]| |]; simpl; auto.
  - destruct (parse c obj s) as [[v r]| |]; simpl; auto.
  - destruct (take n s) as [[v r]| |]; simpl; auto.
  - destruct (take n s) as [[v r]| |]; simpl; auto.
    destruct (parse_fields bs [] (bytes2bits (rev v))) as [[bd r']| |]; simpl; auto. destruct r'; simpl; auto.
Qed.

Lemma prodf_fapp a b : prodf (fapp a b) = prodf a && prodf b.
Proof. induction a; simpl; auto; try (rewrite <- andb_assoc; now rewrite IHa); now rewrite <- andb_assoc, IHa2. Qed.

Definition rt (m dl : bool) (ep : dict) (b : res (list Z)) (p : dict -> list Z -> res (val * list Z)) (v' : val) : Prop :=
  exists s, b = Ok s /\ units m s /\
    forall rest ctx, units m rest -> (dl = false -> rest = []) -> pubd ctx = ep ->
      exists u, p ctx (s ++ rest) = Ok (u, rest) /\ pub u = v'.

Definition fails (m dl : bool) (eb ep : dict) (v : val) (s : list Z) (cj : con) : Prop :=
  (exists e, build cj eb v = Err e) /\
  forall rest ctx, units m rest -> (dl = false -> rest = []) -> pubd ctx = ep ->
    exists e, parse cj ctx (s ++ rest) = Err e.

Lemma excl_fails m dl eb ep v v' s ci cj :
  wf m ci = true -> prod cj = true -> build ci eb v = Ok s ->
  (forall rest ctx, units m rest -> (dl = false -> rest = []) -> pubd ctx = ep ->
      exists u, parse ci ctx (s ++ rest) = Ok (u, rest) /\ pub u = v') ->
  excl dl cj ci v -> fails m dl eb ep v s cj.
Proof.
  intros Hwf Hprod Hb Hp [(t & n & sg & z & -> & -> & Hv & Hn) | (-> & Hm & Hs)].
  - split.
    + cbn [build encode]. assert (exists e, enum_encode t v = Err e) as [e ->]; [|simpl; eauto].
      unfold enum_encode. pose proof (int_key_as_int _ _ Hv) as Hk. destruct v; try discriminate Hv; rewrite Hk, Hn; eauto.
    + intros rest ctx Ur Hd Hc. destruct (Hp rest ctx Ur Hd Hc) as (u & Pu & _).
      cbn [parse] in *. destruct (take n (s ++ rest)) as [[a r]| |] eqn:Et; try discriminate.
      cbn [bind] in *. injection Pu as <- ->.
      cbn [build] in Hb. unfold as_intr in Hb. rewrite Hv in Hb. cbn [bind] in Hb.
      destruct ((int_min n sg <=? z) && (z <=? int_max n sg)) eqn:Er; [|discriminate]. injection Hb as <-.
      apply take_ok in Et as [Ea El]. apply app_inv_tail in Ea. subst a.
      cbn [decode]. unfold enum_decode. cbn [as_int].
      destruct (fits_le_roundtrip n sg z) as [_ ->].
      * cbn [wf] in Hwf. apply andb_prop in Hwf as [_ Hwf]. now apply Nat.ltb_lt.
      * apply andb_prop in Er as [E1 E2]. apply Z.leb_le in E1, E2. unfold fits, int_min, int_max in *. destruct sg; lia.
      * rewrite Hn. simpl. eauto.
  - split; [now apply missing_err|]. intros rest ctx Ur Hd Hc. rewrite (Hd eq_refl), app_nil_r.
    destruct Hs as [(n & Hn & Hl) | (a & b & -> & -> & Hst & Hl)].
    + apply parse_short; [exact Hprod|]. rewrite (build_len _ _ _ _ _ Hn Hb). exact Hl.
    + destruct (Hp [] ctx ltac:(constructor) ltac:(auto) Hc) as (u & Pu & _). rewrite app_nil_r in Pu.
      cbn [parse] in *. rewrite parse_fapp by exact Hst.
      destruct (parse_fields a [] s) as [[d r]| |]; try discriminate. cbn [bind] in *. injection Pu as <- ->.
      cbn [prod] in Hprod. rewrite prodf_fapp in Hprod. apply andb_prop in Hprod as [_ Hpb].
      apply bind_err. destruct (parse_fields b d []) as [[d' r']|e|] eqn:E; [|eauto|].
      * apply parse_len_mut in E. simpl in E. lia.
      * exfalso. revert E. apply parse_nodiv_mut. exact Hpb.
Qed.

Lemma wf_find_case m cs z n c : wfk m cs = true -> find_case z cs = Some (n, c) -> wf m c = true.
Proof.
  induction cs as [|n' w c' cs' IH]; simpl; [discriminate|]. intros Hv H. apply andb_prop in Hv as [H1 H2].
  destruct (z =? w); [now injection H as <- <- | auto].
Qed.
Lemma build_case_find cs : forall z ctx v n c, find_case z cs = Some (n, c) -> build_case z cs ctx v = build c ctx v.
Proof. induction cs as [|n' w c' cs' IH]; simpl; [discriminate|]. intros z ctx v n c H. destruct (z =? w); [now injection H as <- <- | eauto]. Qed.

Lemma byte_len {A} (l : list A) : (length l < 256)%nat -> isbyte (Z.of_nat (length l)).
Proof. unfold isbyte. lia. Qed.

(** ** Opcodes *)
Lemma opcode_roundtrip z : legal_opcode z ->
  exists s, opcode_build z = Ok s /\ units false s /\ forall rest, opcode_parse (s ++ rest) = Ok (z, rest).
Proof.
  unfold legal_opcode, opcode_build. intros H.
  destruct (Z.gtb_spec z 65535) as [H1|H1].
  - destruct (Z.ltb_spec z 16777216); [|lia]. eexists; repeat split.
    + assert (0 <= z / 65536 < 256) by (split; [apply Z.div_pos | apply Z.div_lt_upper_bound]; lia).
      pose proof (Z.mod_pos_bound (z / 256) 256). pose proof (Z.mod_pos_bound z 256).
      repeat constructor; unfold isbyte; lia.
    + intros rest. cbn [app opcode_parse].
      assert (192 <= z / 65536) by (apply Z.div_le_lower_bound; lia).
      destruct (Z.eqb_spec (z / 65536) 127); [lia|]. destruct (Z.ltb_spec (z / 65536) 128); [lia|].
      destruct (Z.ltb_spec (z / 65536) 192); [lia|]. do 2 f_equal.
      replace 65536 with (256 * 256) by reflexivity. rewrite <- Z.div_div by lia.
      pose proof (Z.div_mod z 256). pose proof (Z.div_mod (z / 256) 256). lia.
  - destruct (Z.gtb_spec z 255) as [H2|H2].
    + eexists; repeat split.
      * assert (0 <= z / 256 < 256) by (split; [apply Z.div_pos | apply Z.div_lt_upper_bound]; lia).
        pose proof (Z.mod_pos_bound z 256). repeat constructor; unfold isbyte; lia.
      * intros rest. cbn [app opcode_parse].
        assert (128 <= z / 256) by (apply Z.div_le_lower_bound; lia).
        assert (z / 256 < 192) by (apply Z.div_lt_upper_bound; lia).
        destruct (Z.eqb_spec (z / 256) 127); [lia|]. destruct (Z.ltb_spec (z / 256) 128); [lia|].
        destruct (Z.ltb_spec (z / 256) 192); [|lia]. do 2 f_equal. pose proof (Z.div_mod z 256). lia.
    + destruct (Z.leb_spec 0 z); [|lia]. eexists; repeat split.
      * repeat constructor; unfold isbyte; lia.
      * intros rest. cbn [app opcode_parse]. destruct (Z.eqb_spec z 127); [lia|]. destruct (Z.ltb_spec z 128); [|lia]. reflexivity.
Qed.

(** ** Sensor settings and data *)
Lemma to_bytes_raw x l : raw_bytes x l -> to_bytes x = Ok l.
Proof.
  intros [Hl [-> | ->]]; [|reflexivity]. cbn [to_bytes].
  induction Hl as [|b l Hb Hl IH]; [reflexivity|]. cbn [map fold_right]. rewrite IH. cbn [bind as_intr as_int].
  unfold as_intr. cbn [as_int bind]. unfold isbyte in Hb.
  destruct (Z.leb_spec 0 b); [|lia]. destruct (Z.ltb_spec b 256); [|lia]. reflexivity.
Qed.

Lemma setting_entry_id t z idv2 name v : setting_entry t z idv2 name -> as_int v = Some z ->
  (by_value t z = None -> v = VInt z) -> setting_id t v = (idv2, name).
Proof.
  unfold setting_entry, setting_id. intros H Hv Hn. rewrite (int_key_as_int _ _ Hv).
  destruct (by_value t z) as [m|].
  - destruct H as (n & -> & -> & ->). reflexivity.
  - destruct H as [-> ->]. now rewrite Hn.
Qed.
(** when building, the id may be any integer-like value *)
Lemma setting_entry_build t z idv2 name v : setting_entry t z idv2 name -> as_int v = Some z ->
  exists i, setting_id t v = (i, name) /\ int_key i = Some z.
Proof.
  unfold setting_entry, setting_id. intros H Hv. rewrite (int_key_as_int _ _ Hv).
  destruct (by_value t z) as [m|].
  - destruct H as (n & -> & -> & ->). eexists; split; reflexivity.
  - destruct H as [-> ->]. eexists; split; [reflexivity | now apply int_key_as_int].
Qed.
Lemma setting_entry_vis t z idv2 name : vis_enum t = true -> setting_entry t z idv2 name ->
  hidden name = false /\ as_int idv2 = Some z /\ pub idv2 = idv2.
Proof.
  unfold setting_entry. intros Hv H. destruct (by_value t z) as [m|] eqn:E.
  - destruct H as (n & -> & -> & ->). split; [eapply vis_enum_by_value; eauto | auto].
  - destruct H as [-> ->]. auto.
Qed.

Lemma lor_odd k : Z.lor (2 * k) 1 = 2 * k + 1.
Proof. destruct k as [|p|p]; try reflexivity. destruct p; reflexivity. Qed.
Lemma lor_disjoint a r : 0 <= a < 16 -> 0 <= r < 8 -> Z.lor (2 * a) (32 * r) = 2 * a + 32 * r.
Proof.
  intros Ha Hr.
  assert (C : forallb (fun a => forallb (fun r => Z.lor (2 * Z.of_nat a) (32 * Z.of_nat r) =? 2 * Z.of_nat a + 32 * Z.of_nat r)
                                (seq 0 8)) (seq 0 16) = true) by reflexivity.
  rewrite forallb_forall in C. specialize (C (Z.to_nat a)). rewrite forallb_forall in C by (apply in_seq; lia).
  specialize (C ltac:(apply in_seq; lia) (Z.to_nat r) ltac:(apply in_seq; lia)).
  rewrite !Z2Nat.id in C by lia. now apply Z.eqb_eq.
Qed.

(** ** The theorem *)
Section Main.
Variable A : adapter -> val -> val -> val -> val -> Prop.
Hypothesis HA : forall a v w w' v', A a v w w' v' ->
  encode a v = Ok w /\ forall w2, pub w2 = w' -> exists u, decode a w2 = Ok u /\ pub u = v'.

Ltac spl H := repeat (match type of H with _ && _ = true => let H2 := fresh H in apply andb_prop in H as [H H2] end).
Ltac modes := repeat match goal with
  | H : negb ?m = true |- _ => apply negb_true_iff in H; subst m
  | H : ?m = true |- _ => is_var m; subst m
  end.

Lemma conf_case_none cs : forall z dl eb ep v v', find_case z cs = None -> conf_case A z cs dl eb ep v v' -> v = VNone /\ v' = VNone.
Proof.
  induction cs as [|n w c cs IH]; cbn [find_case conf_case]; intros z dl eb ep v v' H C; [exact C|].
  destruct (z =? w); [discriminate | eauto].
Qed.

Theorem roundtrip_mut :
  (forall c m dl eb ep v v', wf m c = true -> conf A c dl eb ep v v' ->
     rt m dl ep (build c eb v) (parse c) v') /\
  (forall fs m dl eb ep obj d', wff m fs = true -> conf_fields A fs dl eb ep obj d' ->
     exists s, build_fields fs eb obj = Ok s /\ units m s /\
       forall rest ctx, units m rest -> (dl = false -> rest = []) -> pubd ctx = ep ->
         exists d2, parse_fields fs ctx (s ++ rest) = Ok (d2, rest) /\ pubd d2 = d') /\
  (forall cs z m dl eb ep v v', wfk m cs = true -> conf_case A z cs dl eb ep v v' ->
     rt m dl ep (build_case z cs eb v) (parse_case z cs) v') /\
  (forall l prev m dl eb ep v v', wfa m l = true -> Forall (fun c => prod c = true) prev ->
     conf_alts A l prev dl eb ep v v' ->
     exists s, build_alts l eb v = Ok s /\ units m s /\ Forall (fails m dl eb ep v s) prev /\
       forall rest ctx, units m rest -> (dl = false -> rest = []) -> pubd ctx = ep ->
         exists u, parse_alts l ctx (s ++ rest) = Ok (u, rest) /\ pub u = v').
Proof.
  apply con_mutind.
  - (* CInt *)
    intros n sg m dl eb ep v v' W (z & Hv & Hf & ->). cbn [wf] in W. spl W. modes. apply Nat.ltb_lt in W0.
    destruct (fits_le_roundtrip n sg z W0 Hf) as [E1 E2].
    exists (to_le n z). cbn [build]. unfold as_intr. rewrite Hv. cbn [bind]. rewrite E1.
    repeat split; [apply to_le_units|]. intros rest ctx Ur _ _. cbn [parse].
    rewrite take_app' by apply to_le_length. cbn [bind]. rewrite E2. eauto.
  - (* CBytesInt *)
    intros n sw m dl eb ep v v' W (z & Hv & Hf & ->). cbn [wf] in W. modes.
    cbn [build]. unfold as_intr. rewrite Hv. cbn [bind]. unfold fits in Hf.
    destruct (Z.ltb_spec z 0); [lia|]. rewrite integer2bytes_small by exact Hf. cbn [bind].
    eexists; repeat split.
    + destruct sw; [apply to_le_units | apply Forall_rev, to_le_units].
    + intros rest ctx Ur _ _. cbn [parse]. rewrite take_app' by (destruct sw; rewrite ?rev_length; apply to_le_length).
      cbn [bind]. eexists; split; [reflexivity|]. simpl. do 2 f_equal.
      assert (E : of_le (to_le n z) = z) by (rewrite of_to_le, pow256_2; apply Z.mod_small; exact Hf).
      destruct sw; [exact E | now rewrite rev_involutive].
  - (* CBits *)
    intros n sg m dl eb ep v v' W (z & Hv & Hf & ->). cbn [wf] in W. spl W. modes. apply Nat.ltb_lt in W0.
    exists (to_bits n z). cbn [build]. unfold as_intr. rewrite Hv. cbn [bind]. unfold fits in Hf.
    assert ((z <? 0) && negb sg = false) as -> by (destruct sg; [now rewrite andb_false_r | destruct (Z.ltb_spec z 0); [lia|reflexivity]]).
    repeat split; [apply to_bits_bits|]. intros rest ctx Ur _ _. cbn [parse].
    rewrite take_app' by apply to_bits_length. cbn [bind]. rewrite of_to_bits. eexists; split; [reflexivity|].
    simpl. f_equal. destruct sg; [apply signed_roundtrip; lia | apply Z.mod_small; lia].
  - (* CFlag *)
    intros m dl eb ep v v' W ->. exists [if truthy v then 1 else 0]. cbn [build]. repeat split.
    + constructor; [|constructor]. destruct m, (truthy v); unfold unit_ok, isbit, isbyte; lia.
    + intros rest ctx _ _ _. cbn [parse app]. eexists; split; [reflexivity|]. now destruct (truthy v).
  - (* CIeee *)
    intros n m dl eb ep v v' W (b & -> & Hf & ->). cbn [wf] in W. modes. unfold fits in Hf.
    exists (to_le n b). cbn [build]. rewrite Nat.eqb_refl. repeat split; [apply to_le_units|].
    intros rest ctx _ _ _. cbn [parse]. rewrite take_app' by apply to_le_length. cbn [bind].
    rewrite of_to_le, pow256_2, Z.mod_small by exact Hf. eauto.
  - (* CBytes *)
    intros n m dl eb ep v v' W (l & -> & Hl & Hn & ->). cbn [wf] in W. modes. exists l. cbn [build].
    rewrite (proj2 (Nat.eqb_eq _ _) Hn). repeat split; [exact Hl|]. intros rest ctx _ _ _. cbn [parse].
    rewrite take_app' by exact Hn. cbn [bind]. eauto.
  - (* CGreedyBytes *)
    intros m dl eb ep v v' W (-> & l & -> & Hl & ->). cbn [wf] in W. modes. exists l. cbn [build].
    repeat split; [exact Hl|]. intros rest ctx _ Hd _. rewrite (Hd eq_refl), app_nil_r. cbn [parse]. eauto.
  - (* CGreedyString *)
    intros m dl eb ep v v' W (-> & t & l & -> & Hl & ->). cbn [wf] in W. modes. exists l. cbn [build]. rewrite Hl.
    repeat split; [eapply utf8_encode_bytes; eauto|]. intros rest ctx _ Hd _. rewrite (Hd eq_refl), app_nil_r. cbn [parse].
    rewrite (utf8_decode_encode _ _ Hl). eauto.
  - (* CPaddedString *)
    intros e m dl eb ep v v' W (n & t & l & He & Hp & -> & Hl & Hlen & Hlast & ->). cbn [wf] in W. spl W. modes.
    cbn [build]. rewrite (eval_is_eval _ _ _ He). cbn [bind]. rewrite Hl.
    destruct (Z.ltb_spec n 0); [lia|]. destruct (Z.leb_spec (Z.of_nat (length l)) n); [|lia].
    eexists; repeat split.
    + apply units_app; [eapply utf8_encode_bytes; eauto | apply units_zeros].
    + intros rest ctx _ _ Hc. cbn [parse]. rewrite (eval_is_ctx _ _ _ _ W0 Hc Hp). cbn [bind].
      destruct (Z.ltb_spec n 0); [lia|].
      rewrite take_app' by (rewrite app_length, repeat_length; lia). cbn [bind].
      rewrite strip_nul_app, strip_nul_last by exact Hlast. rewrite (utf8_decode_encode _ _ Hl). eauto.
  - (* CPascalString *)
    intros m dl eb ep v v' W (t & l & -> & Hl & Hlen & ->). cbn [wf] in W. modes. cbn [build]. rewrite Hl.
    destruct (Z.ltb_spec (Z.of_nat (length l)) 256); [|lia]. eexists; repeat split.
    + constructor; [now apply byte_len | eapply utf8_encode_bytes; eauto].
    + intros rest ctx _ _ _. cbn [parse app]. rewrite Nat2Z.id, take_app. cbn [bind].
      rewrite (utf8_decode_encode _ _ Hl). eauto.
  - (* CPrefixedBytes *)
    intros m dl eb ep v v' W (l & -> & Hl & Hlen & ->). cbn [wf] in W. modes. cbn [build].
    destruct (Z.ltb_spec (Z.of_nat (length l)) 256); [|lia]. eexists; repeat split.
    + constructor; [now apply byte_len | exact Hl].
    + intros rest ctx _ _ _. cbn [parse app]. rewrite Nat2Z.id, take_app. cbn [bind]. eauto.
  - (* CPrefixedArray *)
    intros c IH m dl eb ep v v' W (l & l' & Hi & -> & Hlen & Hl). cbn [wf] in W. spl W. modes.
    cbn [build]. rewrite Hi. destruct (Z.ltb_spec (Z.of_nat (length l)) 256); [|lia].
    destruct (list_build false ep (build c eb) (parse c) _ (fun dl x x' => IH false dl eb ep x x' W0) dl l l' Hl)
      as (s & Hs & Us & Ps).
    rewrite Hs. cbn [bind]. eexists; repeat split.
    + constructor; [now apply byte_len | exact Us].
    + intros rest ctx Ur Hd Hc. cbn [parse app]. rewrite Nat2Z.id. destruct (Ps rest ctx Ur Hd Hc) as (us & Pu & Eu).
      rewrite Pu. cbn [bind]. eexists; split; [reflexivity|]. simpl. now rewrite Eu.
  - (* CArray *)
    intros e c IH m dl eb ep v v' W (l & l' & Hi & -> & He & Hp & Hl). cbn [wf] in W. spl W.
    cbn [build]. rewrite (eval_is_eval _ _ _ He). cbn [bind]. rewrite Hi, Z.eqb_refl.
    destruct (Z.leb_spec 0 (Z.of_nat (length l))); [|lia]. cbn [andb].
    destruct (list_build m ep (build c eb) (parse c) _ (fun dl x x' => IH m dl eb ep x x' W0) dl l l' Hl)
      as (s & Hs & Us & Ps).
    exists s. repeat split; auto. intros rest ctx Ur Hd Hc. cbn [parse]. rewrite (eval_is_ctx _ _ _ _ W Hc Hp).
    cbn [bind]. destruct (Z.ltb_spec (Z.of_nat (length l)) 0); [lia|]. rewrite Nat2Z.id.
    destruct (Ps rest ctx Ur Hd Hc) as (us & Pu & Eu). rewrite Pu. cbn [bind].
    eexists; split; [reflexivity|]. simpl. now rewrite Eu.
  - (* CGreedyRange *)
    intros c IH m dl eb ep v v' W (-> & l & l' & Hi & -> & Hl). cbn [wf] in W. spl W. apply Nat.ltb_lt in W0.
    cbn [build]. rewrite Hi.
    destruct (list_build m ep (build c eb) (parse c) _ (fun dl x x' => IH m dl eb ep x x' W) false l l' Hl)
      as (s & Hs & Us & Ps).
    exists s. repeat split; auto. intros rest ctx Ur Hd Hc.
    destruct (Ps rest ctx Ur Hd Hc) as (us & Pu & Eu). rewrite (Hd eq_refl) in *. rewrite app_nil_r in *.
    exists (VList us). split; [|simpl; now rewrite Eu]. cbn [parse].
    rewrite (greedy_times (parse c ctx)) with (n := length l) (us := us).
    + reflexivity.
    + intros s' v' r' Hp'. apply parse_len in Hp'. lia.
    + apply parse_short; [exact W1 | simpl; lia].
    + exact Pu.
    + lia.
  - (* CStruct *)
    intros fs IH m dl eb ep v v' W (d & d' & -> & -> & Hf). cbn [wf] in W.
    destruct (IH m dl d [] d d' W Hf) as (s & Hs & Us & Ps). exists s. cbn [build as_dict bind]. repeat split; auto.
    intros rest ctx Ur Hd Hc. destruct (Ps rest [] Ur Hd eq_refl) as (d2 & Pd & Ed).
    cbn [parse]. rewrite Pd. cbn [bind]. eexists; split; [reflexivity|]. rewrite pub_dict. now rewrite Ed.
  - (* CBitwise *)
    intros c IH m dl eb ep v v' W Hc. cbn [wf] in W. cbn [conf] in Hc. spl W. modes.
    destruct (IH true dl eb ep v v' W1 Hc) as (s & Hs & Us & Ps). cbn [build]. rewrite Hs. cbn [bind].
    destruct (bits2bytes s) as [bs lo] eqn:Eb.
    destruct (bits2bytes_spec s Us bs lo Eb) as (Es & Hbs & Hlo).
    assert (lo = []) as ->.
    { apply (wholeb_len _ _ _ _ W0) in Hs. rewrite Es, app_length, bytes2bits_length in Hs. unfold mod8 in Hs.
      rewrite Nat.mul_comm, Nat.add_comm, Nat.mod_add, Nat.mod_small in Hs by lia. now destruct lo. }
    rewrite app_nil_r in Es. subst s. exists bs. repeat split; [exact Hbs|].
    intros rest ctx Ur Hd Hctx. cbn [parse]. rewrite bytes2bits_app.
    destruct (Ps (bytes2bits rest) ctx) as (u & Pu & Eu); [apply bytes2bits_bits | | exact Hctx |].
    { intros Hf. now rewrite (Hd Hf). }
    rewrite Pu. cbn [bind]. rewrite bits2bytes_bytes2bits' by exact Ur. eauto.
  - (* CBytewise *)
    intros c IH m dl eb ep v v' W Hc. cbn [wf] in W. cbn [conf] in Hc. spl W. modes.
    destruct (IH false dl eb ep v v' W0 Hc) as (s & Hs & Us & Ps). cbn [build]. rewrite Hs. cbn [bind].
    exists (bytes2bits s). repeat split; [apply bytes2bits_bits|].
    intros rest ctx Ur Hd Hctx. cbn [parse].
    destruct (bits2bytes rest) as [rb lo] eqn:Er. destruct (bits2bytes_spec rest Ur rb lo Er) as (Erest & Hrb & Hlo).
    assert (bits2bytes (bytes2bits s ++ rest) = (s ++ rb, lo)) as ->.
    { rewrite Erest, app_assoc, <- bytes2bits_app. apply bits2bytes_bytes2bits; [apply Forall_app; auto | exact Hlo]. }
    destruct (Ps rb ctx) as (u & Pu & Eu); [exact Hrb | | exact Hctx |].
    { intros Hf. rewrite (Hd Hf) in Er. simpl in Er. now injection Er as <- <-. }
    rewrite Pu. cbn [bind]. rewrite <- Erest. eauto.
  - (* CReversed *)
    intros n c IH m dl eb ep v v' W Hc. cbn [wf] in W. cbn [conf] in Hc. spl W.
    destruct (fsz c) as [k|] eqn:Ek; [|discriminate]. apply Nat.eqb_eq in W0. subst k.
    destruct (IH m false eb ep v v' W Hc) as (s & Hs & Us & Ps). cbn [build]. rewrite Hs. cbn [bind].
    exists (rev s). repeat split; [apply Forall_rev, Us|]. intros rest ctx Ur Hd Hctx. cbn [parse].
    rewrite take_app' by (rewrite rev_length; eapply build_len; eauto). cbn [bind]. rewrite rev_involutive.
    destruct (Ps [] ctx (units_nil m) ltac:(auto) Hctx) as (u & Pu & Eu). rewrite app_nil_r in Pu. rewrite Pu. cbn [bind]. eauto.
  - (* CAdapt *)
    intros a c IH m dl eb ep v v' W (w & w' & HAv & Hc). cbn [wf] in W.
    destruct (HA _ _ _ _ _ HAv) as [He Hd']. destruct (IH m dl eb ep w w' W Hc) as (s & Hs & Us & Ps).
    exists s. cbn [build]. rewrite He. cbn [bind]. repeat split; auto. intros rest ctx Ur Hd Hctx.
    destruct (Ps rest ctx Ur Hd Hctx) as (u & Pu & Eu). destruct (Hd' u Eu) as (x & Dx & Ex).
    exists x. cbn [parse]. rewrite Pu. cbn [bind]. rewrite Dx. cbn [bind]. auto.
  - (* CSelect *)
    intros l IH m dl eb ep v v' W Hc. cbn [wf] in W. cbn [conf] in Hc.
    destruct (IH [] m dl eb ep v v' W (Forall_nil _) Hc) as (s & Hs & Us & _ & Ps). exists s. cbn [build]. repeat split; auto.
  - (* CNamed *)
    intros n c IH m dl eb ep v v' W (d & d' & -> & -> & Hc). cbn [wf] in W.
    destruct (IH m dl eb ep _ _ W Hc) as (s & Hs & Us & Ps). exists s. cbn [build].
    repeat split; auto; [now destruct (dget n d)|]. intros rest ctx Ur Hd Hctx.
    destruct (Ps rest ctx Ur Hd Hctx) as (u & Pu & Eu). apply pub_dict_inv in Eu as (d0 & -> & Ed).
    cbn [parse]. rewrite Pu. cbn [bind]. eexists; split; [reflexivity|]. rewrite pub_dict, pubd_dset_hidden by reflexivity.
    now rewrite Ed.
  - (* CSwitch *)
    intros k cs IH m dl eb ep v v' W (x & x' & z & Hx & Hx' & Hz & Hz' & Hc). cbn [wf] in W. spl W.
    destruct (IH z m dl eb ep v v' W0 Hc) as (s & Hs & Us & Ps). exists s. cbn [build]. unfold dgetr at 1. rewrite Hx. cbn [bind].
    rewrite (int_key_as_int _ _ Hz). repeat split; auto. intros rest ctx Ur Hd Hctx. cbn [parse].
    destruct (dget_ctx k ctx ep x' (vis_hidden _ W) Hctx Hx') as (y & Hy & <-). unfold dgetr. rewrite Hy. cbn [bind].
    rewrite as_int_pub in Hz'. rewrite (int_key_as_int _ _ Hz'). auto.
  - (* CEnumSwitchStruct *)
    intros k cs IH m dl eb ep v v' W (x & n & z & c & d & y & y' & Hx & Hz & Hx' & Hfc & -> & Hy & Hc & ->).
    cbn [wf] in W. spl W.
    destruct (IH z m dl eb ep y y' W0 Hc) as (s & Hs & Us & Ps). exists s. cbn [build]. unfold dgetr at 1. rewrite Hx. cbn [bind].
    rewrite (int_key_as_int _ _ Hz), Hfc. unfold dgetr. rewrite Hy. cbn [bind]. repeat split; auto.
    intros rest ctx Ur Hd Hctx. cbn [parse].
    destruct (dget_ctx k ctx ep _ (vis_hidden _ W) Hctx Hx') as (e & He & Ee). apply pub_enum in Ee. subst e.
    unfold dgetr. rewrite He. cbn [bind]. destruct (Ps rest ctx Ur Hd Hctx) as (u & Pu & Eu). rewrite Pu. cbn [bind].
    eexists; split; [reflexivity|]. rewrite pub_dict. cbn [pubd]. rewrite (vis_find_case _ _ _ _ W1 Hfc), Eu. reflexivity.
  - (* CIfDefault *)
    intros k c IH df m dl eb ep v v' W (x & x' & z & Hx & Hx' & Hz & Hz' & Hc). cbn [wf] in W. spl W.
    cbn [build]. unfold dgetr at 1. rewrite Hx. cbn [bind]. rewrite (truthy_int _ _ Hz).
    destruct (Z.eqb_spec z 0) as [->|Hn]; cbn [negb].
    + destruct Hc as [-> ->]. exists []. repeat split; [constructor|]. intros rest ctx Ur Hd Hctx. cbn [parse app].
      destruct (dget_ctx k ctx ep x' (vis_hidden _ W) Hctx Hx') as (y & Hy & <-). unfold dgetr. rewrite Hy. cbn [bind].
      rewrite as_int_pub in Hz'. rewrite (truthy_int _ _ Hz'). cbn [Z.eqb negb]. destruct df; try discriminate W0. eauto.
    + destruct (IH m dl eb ep v v' W1 Hc) as (s & Hs & Us & Ps). exists s. repeat split; auto.
      intros rest ctx Ur Hd Hctx. cbn [parse].
      destruct (dget_ctx k ctx ep x' (vis_hidden _ W) Hctx Hx') as (y & Hy & <-). unfold dgetr. rewrite Hy. cbn [bind].
      rewrite as_int_pub in Hz'. rewrite (truthy_int _ _ Hz'). destruct (Z.eqb_spec z 0); [congruence|]. cbn [negb]. auto.
  - (* COpcode *)
    intros t m dl eb ep v v' W (z & Hv & Hl & Ht). cbn [wf] in W. modes.
    destruct (opcode_roundtrip z Hl) as (s & Hs & Us & Ps). exists s. cbn [build]. unfold as_intr. rewrite Hv. cbn [bind].
    rewrite Hs. cbn [bind]. rewrite Ht. repeat split; auto. intros rest ctx _ _ _. cbn [parse]. rewrite Ps. cbn [bind].
    rewrite Ht. eexists; split; [reflexivity|]. apply by_value_enum in Ht as (n & -> & _). reflexivity.
  - (* CSwitchStruct *)
    intros k kc IHk t sw cs IHc m dl eb ep v v' W (d & kv & z & n & x & x' & -> & Hk & Hz & Ht & Hx & Hkc & Hcs & ->).
    cbn [wf] in W. spl W. modes.
    destruct (IHk false true _ _ _ _ W1 Hkc) as (s1 & Hs1 & Us1 & Ps1).
    destruct (IHc z false dl _ _ x x' W0 Hcs) as (s2 & Hs2 & Us2 & Ps2).
    exists (s1 ++ s2). cbn [build]. unfold dgetr at 1. rewrite Hk. cbn [bind]. rewrite (int_key_as_int _ _ Hz), Ht.
    assert ((match dget (lower n) d with Some x0 => Ok x0 | None => dgetr sw d end) = Ok x) as ->.
    { destruct Hx as [->|[-> Hsw]]; [reflexivity|]. unfold dgetr. now rewrite Hsw. }
    cbn [bind]. rewrite Hs1. cbn [bind]. rewrite Hs2. cbn [bind]. repeat split; [apply units_app; auto|].
    intros rest ctx Ur Hd Hctx. cbn [parse]. rewrite <- app_assoc.
    destruct (Ps1 (s2 ++ rest) [] ltac:(apply units_app; auto) ltac:(discriminate) eq_refl) as (u & Pu & Eu).
    apply pub_enum in Eu. subst u. rewrite Pu. cbn [bind].
    destruct (Ps2 rest [(k, VEnum n z)] Ur Hd) as (u & Pu2 & Eu2).
    { cbn [pubd]. now rewrite (vis_hidden _ W3). }
    rewrite Pu2. cbn [bind]. eexists; split; [reflexivity|]. rewrite pub_dict.
    rewrite pubd_dset by (eapply vis_enum_by_value; eauto). rewrite Eu2. cbn [pubd]. now rewrite (vis_hidden _ W3).
  - (* CProp *)
    intros hdr IHh t cs IHc m dl eb ep v v' W
      (d & h' & idv & idv' & z & n & c & x & x' & -> & Hh & Hid & Hz & Ht & Hfc & Hid' & Hz' & Hx & Hcs & ->).
    cbn [wf] in W. spl W. modes.
    destruct (IHh false true _ _ _ _ W1 Hh) as (s1 & Hs1 & Us1 & Ps1).
    destruct (IHc z false dl _ _ x x' W0 Hcs) as (s2 & Hs2 & Us2 & Ps2).
    exists (s1 ++ s2). cbn [build]. rewrite Hs1. cbn [bind]. unfold dgetr at 1. rewrite Hid. cbn [bind].
    rewrite (int_key_as_int _ _ Hz), Ht, Hfc. unfold dgetn. rewrite Hx, Hs2. cbn [bind].
    repeat split; [apply units_app; auto|].
    intros rest ctx Ur Hd Hctx. cbn [parse]. rewrite <- app_assoc.
    destruct (Ps1 (s2 ++ rest) ctx ltac:(apply units_app; auto) ltac:(discriminate) Hctx) as (u & Pu & Eu).
    apply pub_dict_inv in Eu as (h & -> & Eh). rewrite Pu. cbn [bind].
    destruct (dget_ctx "property_id" h h' _ eq_refl Eh Hid') as (i & Hi & Ei).
    unfold dgetr. rewrite Hi. cbn [bind]. unfold as_intr. rewrite <- (as_int_pub i), Ei, Hz'. cbn [bind]. rewrite Ht, Hfc.
    destruct (Ps2 rest ctx Ur Hd Hctx) as (u & Pu2 & Eu2). rewrite Pu2. cbn [bind].
    eexists; split; [reflexivity|]. rewrite pub_dict, pubd_dset by (eapply vis_enum_by_value; eauto).
    rewrite pubd_dset by reflexivity. rewrite pubd_ddel by reflexivity. now rewrite Eu2, Eh.
  - (* CSensorSetting *)
    intros hdr IHh t cs IHc m dl eb ep v v' W
      (d & h' & idv & idv' & z & idv2 & name & x & x' & -> & Hh & Hid & Hz & Hid' & Hz' & Hunk & Hse & Hx & Hcs & ->).
    cbn [wf] in W. spl W. modes.
    destruct (IHh false true _ _ _ _ W1 Hh) as (s1 & Hs1 & Us1 & Ps1).
    destruct (setting_entry_build _ _ _ _ _ Hse Hz) as (i & Hi & Hik).
    destruct (setting_entry_vis _ _ _ _ W2 Hse) as (Hvis & Has2 & Hpub2).
    assert (Hval : exists s2, match find_case z cs with
                              | Some _ => match build_case z cs eb x with Err EKey => to_bytes x | r => r end
                              | None => to_bytes x end = Ok s2 /\ units false s2 /\
              forall rest ctx, units false rest -> (dl = false -> rest = []) -> pubd ctx = ep ->
                 exists u, match find_case z cs with
                           | None => Ok (VList (map VInt (s2 ++ rest)), [])
                           | Some _ => parse_case z cs ctx (s2 ++ rest)
                           end = Ok (u, rest) /\ pub u = x').
    { destruct (find_case z cs) as [p|].
      - destruct (IHc z false dl _ _ x x' W0 Hcs) as (s2 & Hs2 & Us2 & Ps2). exists s2. rewrite Hs2. repeat split; auto.
      - destruct Hcs as (-> & l & Hr & ->). exists l. rewrite (to_bytes_raw _ _ Hr). destruct Hr as [Hl _].
        repeat split; [exact Hl|]. intros rest ctx _ Hd _. rewrite (Hd eq_refl), app_nil_r. eexists; split; [reflexivity|].
        simpl. now rewrite map_map. }
    destruct Hval as (s2 & Hs2 & Us2 & Ps2).
    exists (s1 ++ s2). cbn [build]. rewrite Hs1. cbn [bind]. unfold dgetr at 1. rewrite Hid. cbn [bind].
    rewrite Hi, Hik, Hx, Hs2. cbn [bind]. repeat split; [apply units_app; auto|].
    intros rest ctx Ur Hd Hctx. cbn [parse]. rewrite <- app_assoc.
    destruct (Ps1 (s2 ++ rest) ctx ltac:(apply units_app; auto) ltac:(discriminate) Hctx) as (u & Pu & Eu).
    apply pub_dict_inv in Eu as (h & -> & Eh). rewrite Pu. cbn [bind].
    destruct (dget_ctx sid_name h h' _ eq_refl Eh Hid') as (j & Hj & Ej).
    unfold dgetr. rewrite Hj. cbn [bind].
    rewrite (setting_entry_id _ _ _ _ _ Hse) by
      (first [rewrite <- (as_int_pub j), Ej; exact Hz' | intros Hb; apply pub_int; rewrite Ej; auto]).
    unfold as_intr. rewrite Has2. cbn [bind].
    destruct (Ps2 rest ctx Ur Hd Hctx) as (u & Pu2 & Eu2).
    assert (Hout : pub (VDict (dset name u (dset sid_name idv2 (ddel sid_name h)))) =
                   VDict (dset name x' (dset sid_name idv2 (ddel sid_name h')))).
    { rewrite pub_dict, pubd_dset by exact Hvis. rewrite pubd_dset by reflexivity. rewrite pubd_ddel by reflexivity.
      now rewrite Eu2, Eh, Hpub2. }
    destruct (find_case z cs) as [p|].
    + rewrite Pu2. cbn [bind]. eauto.
    + injection Pu2 as <- <-. eauto.
  - (* CSensorData *)
    intros t cs IHc m dl eb ep v v' W
      (d & idv & f & ln & len & pid & idv' & name & x & x' & -> & Hid & Hpid & Hf & Hln & Hlen & Hrange & Hse & Hx & Hcs & ->).
    cbn [wf] in W. spl W. modes.
    destruct (setting_entry_build _ _ _ _ _ Hse Hpid) as (i & Hi & Hik).
    destruct (setting_entry_vis _ _ _ _ W1 Hse) as (Hvis & Has2 & Hpub2).
    assert (Hval : exists s2, match find_case pid cs with
                              | Some _ => match build_case pid cs eb x with Err EKey => to_bytes x | r => r end
                              | None => to_bytes x end = Ok s2 /\ units false s2 /\ length s2 = Z.to_nat len /\
              forall ctx, pubd ctx = ep ->
                 exists u, match find_case pid cs with
                           | None => Ok (VList (map VInt s2), [])
                           | Some _ => parse_case pid cs ctx s2
                           end = Ok (u, []) /\ pub u = x').
    { destruct (find_case pid cs) as [[n c]|] eqn:Efc.
      - destruct Hcs as [Hfsz Hcs]. destruct (IHc pid false false _ _ x x' W0 Hcs) as (s2 & Hs2 & Us2 & Ps2). exists s2.
        rewrite Hs2. repeat split; auto.
        + rewrite (build_case_find _ _ _ _ _ _ Efc) in Hs2. eapply build_len; eauto.
        + intros ctx Hctx. destruct (Ps2 [] ctx (units_nil _) ltac:(auto) Hctx) as (u & Pu & Eu).
          rewrite app_nil_r in Pu. eauto.
      - destruct Hcs as (l & Hr & Hl & ->). exists l. rewrite (to_bytes_raw _ _ Hr). destruct Hr as [Hb _].
        repeat split; [exact Hb | lia |]. intros ctx _. eexists; split; [reflexivity|]. simpl. now rewrite map_map. }
    destruct Hval as (s2 & Hs2 & Us2 & Ls2 & Ps2).
    cbn [build]. unfold dgetr, geti. rewrite Hid, Hf. cbn [bind]. unfold dgetr. rewrite Hln. cbn [bind].
    unfold as_intr. rewrite Hlen. cbn [bind]. rewrite Hpid. cbn [bind].
    set (fv := if truthy f then 1 else 0).
    assert (Hhdr : exists hd, (if truthy f
         then let h := Z.lor (2 * (len - 1)) 1 in
              if (0 <=? h) && (h <? 256) && (0 <=? pid) && (pid <? 65536) then Ok [h; pid mod 256; pid / 256] else Err EOther
         else let h := Z.lor (2 * (len - 1)) (32 * Z.land pid 7) in
              if (0 <=? h) && (h <? 256) && (0 <=? pid / 8) && (pid / 8 <? 256) then Ok [h; pid / 8] else Err EOther) = Ok hd
        /\ units false hd /\
        forall r, exists b0 b1 s1, hd ++ r = b0 :: b1 :: s1 /\
          (if Z.odd b0 then match s1 with b2 :: s2 => Ok (1, b0 / 2 + 1, b1 + b2 * 256, s2) | [] => Err EOther end
           else Ok (0, b0 / 2 mod 16 + 1, b0 / 32 mod 8 + b1 * 8, s1)) = Ok (fv, len, pid, r)).
    { subst fv. destruct (truthy f); cbn zeta.
      - rewrite lor_odd.
        destruct (Z.leb_spec 0 (2 * (len - 1) + 1)); [|lia]. destruct (Z.ltb_spec (2 * (len - 1) + 1) 256); [|lia].
        destruct (Z.leb_spec 0 pid); [|lia]. destruct (Z.ltb_spec pid 65536); [|lia]. cbn [andb].
        assert (0 <= pid / 256 < 256) by (split; [apply Z.div_pos | apply Z.div_lt_upper_bound]; lia).
        pose proof (Z.mod_pos_bound pid 256). pose proof (Z.div_mod pid 256).
        eexists; repeat split; [repeat constructor; unfold isbyte; lia|].
        intros r. do 3 eexists. split; [reflexivity|].
        assert (Z.odd (2 * (len - 1) + 1) = true) as -> by (rewrite Z.odd_add, Z.odd_mul; reflexivity).
        assert ((2 * (len - 1) + 1) / 2 = len - 1) as -> by (symmetry; apply Z.div_unique with (r := 1); lia).
        repeat f_equal; lia.
      - assert (Hl7 : Z.land pid 7 = pid mod 8) by (change 7 with (Z.ones 3); apply Z.land_ones; lia).
        pose proof (Z.mod_pos_bound pid 8). pose proof (Z.div_mod pid 8).
        rewrite Hl7, lor_disjoint by lia.
        assert (0 <= pid / 8 < 256) by (split; [apply Z.div_pos | apply Z.div_lt_upper_bound]; lia).
        destruct (Z.leb_spec 0 (2 * (len - 1) + 32 * (pid mod 8))); [|lia].
        destruct (Z.ltb_spec (2 * (len - 1) + 32 * (pid mod 8)) 256); [|lia].
        destruct (Z.leb_spec 0 (pid / 8)); [|lia]. destruct (Z.ltb_spec (pid / 8) 256); [|lia]. cbn [andb].
        eexists; repeat split; [repeat constructor; unfold isbyte; lia|].
        intros r. do 3 eexists. split; [reflexivity|].
        replace (2 * (len - 1) + 32 * (pid mod 8)) with (2 * (len - 1 + 16 * (pid mod 8))) by lia.
        rewrite Z.odd_mul. change (Z.odd 2) with false. cbn [andb].
        assert (E2 : 2 * (len - 1 + 16 * (pid mod 8)) / 2 = len - 1 + 16 * (pid mod 8)) by (rewrite Z.mul_comm; apply Z.div_mul; lia).
        assert (E3 : 2 * (len - 1 + 16 * (pid mod 8)) / 32 = pid mod 8).
        { change 32 with (2 * 16). rewrite <- Z.div_div, E2 by lia. rewrite Z.mul_comm, Z.div_add by lia.
          rewrite Z.div_small by lia. lia. }
        rewrite E2, E3. rewrite (Z.mul_comm 16), Z.mod_add by lia. rewrite (Z.mod_small (len - 1)) by lia.
        rewrite (Z.mod_small (pid mod 8)) by lia. repeat f_equal; lia. }
    destruct Hhdr as (hd & Hhd & Uhd & Phd). cbn zeta in Hhd. rewrite Hhd. cbn [bind]. rewrite Hi, Hx, Hs2. cbn [bind].
    exists (hd ++ s2). repeat split; [apply units_app; auto|].
    intros rest ctx Ur Hd Hctx. rewrite <- app_assoc. destruct (Phd (s2 ++ rest)) as (b0 & b1 & s1 & -> & Hq).
    cbn [parse]. rewrite Hq. cbn [bind]. rewrite <- Ls2.
    rewrite firstn_app, Nat.sub_diag, firstn_all, firstn_O, app_nil_r.
    rewrite skipn_app, Nat.sub_diag, skipn_all. cbn [app skipn].
    rewrite (setting_entry_id _ _ _ _ (VInt pid) Hse eq_refl) by auto.
    destruct (Ps2 ctx Hctx) as (u & Pu & Eu).
    assert (Hout : pub (VDict (dset name u [("format"%string, VInt fv); ("length"%string, VInt len); (sid_name, idv')])) =
                   VDict (dset name x' [("format"%string, VInt fv); ("length"%string, VInt len); (sid_name, idv')])).
    { rewrite pub_dict, pubd_dset by exact Hvis. cbn [pubd hidden]. change (hidden sid_name) with false.
      change (hidden "format") with false. change (hidden "length") with false. cbn iota. now rewrite Eu, Hpub2. }
    destruct (find_case pid cs) as [p|].
    + rewrite Pu. cbn [bind]. eauto.
    + injection Pu as <-. eauto.
  - (* FNil *)
    intros m dl eb ep obj d' W ->. exists []. cbn [build_fields]. repeat split; [constructor|].
    intros rest ctx _ _ Hc. cbn [parse_fields app]. eauto.
  - (* FCons *)
    intros k c IHc fs IHf m dl eb ep obj d' W (x & x' & Hx & Hc & Hf). cbn [wff] in W. spl W.
    destruct (IHc m _ eb ep x x' W1 Hc) as (s1 & Hs1 & Us1 & Ps1).
    destruct (IHf m dl _ _ obj d' W0 Hf) as (s2 & Hs2 & Us2 & Ps2).
    exists (s1 ++ s2). cbn [build_fields]. unfold dgetr. rewrite Hx. cbn [bind]. rewrite Hs1. cbn [bind]. rewrite Hs2. cbn [bind].
    repeat split; [apply units_app; auto|]. intros rest ctx Ur Hd Hctx. cbn [parse_fields]. rewrite <- app_assoc.
    destruct (Ps1 (s2 ++ rest) ctx) as (u & Pu & Eu); [apply units_app; auto | | exact Hctx |].
    { destruct fs; try discriminate. simpl in Hs2. injection Hs2 as <-. exact Hd. }
    rewrite Pu. cbn [bind]. apply Ps2; auto. rewrite pubd_dset by (apply vis_hidden; auto). now rewrite Hctx, Eu.
  - (* FDefault *)
    intros k c IHc df fs IHf m dl eb ep obj d' W (x & x' & Hx & Hc & Hf). cbn [wff] in W. spl W.
    destruct (IHc m _ eb ep x x' W1 Hc) as (s1 & Hs1 & Us1 & Ps1).
    destruct (IHf m dl _ _ obj d' W0 Hf) as (s2 & Hs2 & Us2 & Ps2).
    exists (s1 ++ s2). cbn [build_fields].
    assert (Hx' : match dgetn k obj with VNone => df | y => y end = x).
    { subst x. unfold dgetn. destruct (dget k obj) as [y|]; [destruct y; reflexivity | reflexivity]. }
    rewrite Hx'. rewrite Hs1. cbn [bind]. rewrite Hs2. cbn [bind].
    repeat split; [apply units_app; auto|]. intros rest ctx Ur Hd Hctx. cbn [parse_fields]. rewrite <- app_assoc.
    destruct (Ps1 (s2 ++ rest) ctx) as (u & Pu & Eu); [apply units_app; auto | | exact Hctx |].
    { destruct fs; try discriminate. simpl in Hs2. injection Hs2 as <-. exact Hd. }
    rewrite Pu. cbn [bind]. apply Ps2; auto. rewrite pubd_dset by (apply vis_hidden; auto). now rewrite Hctx, Eu.
  - (* FRebuild *)
    intros k e c IHc fs IHf m dl eb ep obj d' W (n & x' & Hx & Hc & Hf). cbn [wff] in W. spl W.
    destruct (IHc m _ eb ep _ x' W1 Hc) as (s1 & Hs1 & Us1 & Ps1).
    destruct (IHf m dl _ _ obj d' W0 Hf) as (s2 & Hs2 & Us2 & Ps2).
    exists (s1 ++ s2). cbn [build_fields]. rewrite (eval_is_eval _ _ _ Hx). cbn [bind]. rewrite Hs1. cbn [bind]. rewrite Hs2. cbn [bind].
    repeat split; [apply units_app; auto|]. intros rest ctx Ur Hd Hctx. cbn [parse_fields]. rewrite <- app_assoc.
    destruct (Ps1 (s2 ++ rest) ctx) as (u & Pu & Eu); [apply units_app; auto | | exact Hctx |].
    { destruct fs; try discriminate. simpl in Hs2. injection Hs2 as <-. exact Hd. }
    rewrite Pu. cbn [bind]. apply Ps2; auto. rewrite pubd_dset by (apply vis_hidden; auto). now rewrite Hctx, Eu.
  - (* FPad *)
    intros k n fs IHf m dl eb ep obj d' W Hf. cbn [wff] in W. cbn [conf_fields] in Hf.
    set (eb' := match k with Some k => dset k (dgetn k obj) eb | None => eb end).
    set (ep' := match k with Some k => if hidden k then ep else dset k VNone ep | None => ep end).
    assert (Hf' : conf_fields A fs dl eb' ep' obj d') by (destruct k; exact Hf).
    destruct (IHf m dl _ _ obj d' W Hf') as (s2 & Hs2 & Us2 & Ps2).
    exists (repeat 0 n ++ s2). cbn [build_fields]. fold eb'. rewrite Hs2. cbn [bind].
    repeat split; [apply units_app; [apply units_zeros | auto]|]. intros rest ctx Ur Hd Hctx. cbn [parse_fields].
    rewrite <- app_assoc, take_app' by apply repeat_length. cbn [bind]. apply Ps2; auto.
    subst ep'. destruct k as [k|]; [|exact Hctx]. destruct (hidden k) eqn:Ek.
    + now rewrite pubd_dset_hidden.
    + rewrite pubd_dset by exact Ek. now rewrite Hctx.
  - (* FStopIf *)
    intros k fs IHf m dl eb ep obj d' W (x & x' & Hx & Hx' & Hz & Hf). cbn [wff] in W. spl W.
    cbn [build_fields]. unfold dgetr at 1. rewrite Hx. cbn [bind]. fold (is_zero x). destruct (is_zero x) eqn:Ez.
    + subst d'. exists []. repeat split; [constructor|]. intros rest ctx Ur Hd Hctx. cbn [parse_fields app].
      destruct (dget_ctx k ctx ep x' (vis_hidden _ W) Hctx Hx') as (y & Hy & Ey). unfold dgetr. rewrite Hy. cbn [bind].
      fold (is_zero y). assert (is_zero y = is_zero x') as -> by (unfold is_zero; now rewrite <- Ey, num_of_pub).
      rewrite <- Hz. eauto.
    + destruct (IHf m dl _ _ obj d' W0 Hf) as (s & Hs & Us & Ps). exists s. repeat split; auto.
      intros rest ctx Ur Hd Hctx. cbn [parse_fields].
      destruct (dget_ctx k ctx ep x' (vis_hidden _ W) Hctx Hx') as (y & Hy & Ey). unfold dgetr. rewrite Hy. cbn [bind].
      fold (is_zero y). assert (is_zero y = is_zero x') as -> by (unfold is_zero; now rewrite <- Ey, num_of_pub).
      rewrite <- Hz. auto.
  - (* FBits *)
    intros n bs IHb fs IHf m dl eb ep obj d' W (db & Hb & Hf). cbn [wff] in W. spl W. modes.
    destruct (fszf bs) as [k|] eqn:Ek; [|discriminate]. apply Nat.eqb_eq in W1. subst k.
    destruct (IHb true false _ _ _ _ W3 Hb) as (s1 & Hs1 & Us1 & Ps1).
    destruct (IHf false dl _ _ obj d' W0 Hf) as (s2 & Hs2 & Us2 & Ps2).
    cbn [build_fields]. rewrite Hs1. cbn [bind].
    pose proof (build_fields_len _ _ _ _ _ Ek Hs1) as Hlen.
    destruct (bits2bytes s1) as [l lo] eqn:Eb. destruct (bits2bytes_spec s1 Us1 l lo Eb) as (Es & Hl & Hlo).
    assert (Hll : length l = n /\ lo = []).
    { rewrite Es, app_length, bytes2bits_length in Hlen. destruct lo; simpl in *; [split; [lia|reflexivity] | lia]. }
    destruct Hll as [Hll ->]. rewrite app_nil_r in Es. subst s1. rewrite Hs2. cbn [bind].
    exists (rev l ++ s2). repeat split; [apply units_app; [apply Forall_rev, Hl | auto]|].
    intros rest ctx Ur Hd Hctx. cbn [parse_fields]. rewrite <- app_assoc, take_app' by (rewrite rev_length; exact Hll).
    cbn [bind]. rewrite rev_involutive. destruct (Ps1 [] [] (units_nil _) ltac:(auto) eq_refl) as (bd & Pb & Ebd).
    rewrite app_nil_r in Pb. rewrite Pb. cbn [bind]. apply Ps2; auto.
    rewrite (copy_bits _ _ _ _ _ W2 Pb). now rewrite Hctx, Ebd.
  - (* KNil *)
    intros z m dl eb ep v v' W [-> ->]. exists []. cbn [build_case]. repeat split; [constructor|].
    intros rest ctx _ _ _. cbn [parse_case app]. exists VNone. auto.
  - (* KCons *)
    intros n w c IHc cs IHk z m dl eb ep v v' W Hc. cbn [wfk] in W. spl W. cbn [conf_case] in Hc.
    cbn [build_case parse_case]. unfold rt. cbn [build_case parse_case]. destruct (z =? w).
    + exact (IHc m dl eb ep v v' W Hc).
    + exact (IHk z m dl eb ep v v' W0 Hc).
  - (* ANil *)
    intros prev m dl eb ep v v' W _ [].
  - (* ACons *)
    intros c IHc l IHl prev m dl eb ep v v' W Hprev [[Hc Hex] | Hc]; cbn [wfa] in W; spl W.
    + destruct (IHc m dl eb ep v v' W Hc) as (s & Hs & Us & Ps). exists s. cbn [build_alts]. rewrite Hs.
      repeat split; auto.
      * rewrite Forall_forall in *. intros cj Hin. eapply excl_fails; eauto.
      * intros rest ctx Ur Hd Hctx. destruct (Ps rest ctx Ur Hd Hctx) as (u & Pu & Eu). cbn [parse_alts]. rewrite Pu. eauto.
    + destruct (IHl (c :: prev) m dl eb ep v v' W0 (Forall_cons _ W1 Hprev) Hc) as (s & Hs & Us & Hfail & Ps).
      inversion Hfail as [|? ? [[e He] Hpf] Hfail']; subst. exists s. cbn [build_alts]. rewrite He. repeat split; auto.
      intros rest ctx Ur Hd Hctx. cbn [parse_alts]. destruct (Hpf rest ctx Ur Hd Hctx) as [e' ->]. auto.
Qed.

Theorem roundtrip c v v' : wf false c = true -> message A c v v' ->
  exists s, build_msg c v = Ok s /\ bytes s /\ exists u, parse_msg c s = Ok u /\ pub u = v'.
Proof.
  intros W H. destruct (proj1 roundtrip_mut c false false [] [] v v' W H) as (s & Hs & Us & Ps).
  exists s. repeat split; auto. destruct (Ps [] [] (units_nil _) ltac:(auto) eq_refl) as (u & Pu & Eu).
  exists u. unfold parse_msg. rewrite app_nil_r in Pu. rewrite Pu. auto.
Qed.
End Main.

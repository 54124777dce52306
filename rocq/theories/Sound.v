(** * Sound: what was decoded lies in the documented domain (basis of C08).

    [snd_ok] is a boolean check on declarations; the main lemma says that for a
    declaration passing it, every value the parser returns -- from any byte string --
    is a legal argument in the sense of Spec.v, to be read back as an equal value. *)
From Verif Require Import PyVal Bits Float64 Utf8 Adapters AdapterSpec Construct Size Spec Master AdapterProofs1 Deps Uses Reread.

(** ** The check *)
(** what kind of value [this.k] is *)
Inductive kind := KI | KE (t : enum) | KP (t : enum).   (* an int, a member of t, a member of t or any other int *)
Definition kind_of (c : con) : option kind :=
  match c with
  | CInt _ _ | CBytesInt _ _ | CBits _ _ => Some KI
  | CAdapt (AEnum t) _ => Some (KE t)
  | COpcode t => Some (KE t)
  | CSelect (ACons (CAdapt (AEnum t) (CInt n sg)) (ACons (CInt n' sg') ANil)) =>
      if Nat.eqb n n' && Bool.eqb sg sg' then Some (KP t) else None
  | _ => None
  end.
Definition tenv := list (string * kind).
Fixpoint tget (k : string) (te : tenv) : option kind :=
  match te with [] => None | (j, x) :: te' => if String.eqb k j then Some x else tget k te' end.
Definition tadd (k : string) (o : option kind) (te : tenv) : tenv :=
  match o with Some x => (k, x) :: te | None => te end.

Fixpoint enum_eqb (a b : enum) : bool :=
  match a, b with
  | [], [] => true
  | (n, z) :: a', (m, w) :: b' => String.eqb n m && Z.eqb z w && enum_eqb a' b'
  | _, _ => false
  end.
Lemma enum_eqb_eq a : forall b, enum_eqb a b = true -> a = b.
Proof.
  induction a as [|[n z] a IH]; intros [|[m w] b] H; try discriminate; [reflexivity|]. cbn in H.
  apply andb_prop in H as [H H2]. apply andb_prop in H as [H0 H1]. apply String.eqb_eq in H0. apply Z.eqb_eq in H1. apply IH in H2. congruence.
Qed.

Definition expr_ok (te : tenv) (e : expr) : bool :=
  match e with
  | EConst _ => true
  | EGet k => match tget k te with Some KI => true | _ => false end
  | _ => false
  end.

(** the visible names a Struct binds *)
Fixpoint names (fs : fields) : list string :=
  match fs with
  | FNil => []
  | FCons k _ fs' | FDefault k _ _ fs' | FRebuild k _ _ fs' => k :: names fs'
  | FPad _ _ fs' | FStopIf _ fs' => names fs'
  | FBits _ bs fs' => names bs ++ names fs'
  end.
(** declarations that are a Struct up to bit and byte order *)
Fixpoint keys_of (c : con) : option (list string) :=
  match c with
  | CStruct fs => Some (names fs)
  | CReversed _ c1 | CBitwise c1 | CNamed _ c1 => keys_of c1
  | _ => None
  end.
Fixpoint chain (c : con) : bool :=
  match c with CStruct _ => true | CReversed _ c1 | CBitwise c1 => chain c1 | _ => false end.
Definition smem (k : string) (l : list string) : bool := existsb (String.eqb k) l.

(** a mandatory field of [c] is not among the keys [ks] *)
Fixpoint missbf (ks : list string) (fs : fields) : bool :=
  match fs with
  | FNil => false
  | FCons k _ fs' => (vis k && negb (smem k ks)) || missbf ks fs'
  | FDefault _ _ _ fs' | FRebuild _ _ _ fs' | FPad _ _ fs' | FBits _ _ fs' => missbf ks fs'
  | FStopIf _ _ => false
  end.
Fixpoint missb (ks : list string) (c : con) : bool :=
  match c with
  | CStruct fs => missbf ks fs
  | CNamed name c1 => vis name && negb (smem name ks) && missb ks c1
  | CReversed _ c1 | CBitwise c1 => missb ks c1
  | _ => false
  end.

(** [f] starts with the fields of [a] (plain fields only) *)
Definition simple_eqb (c c' : con) : bool :=
  match c, c' with
  | CAdapt AMac c1, CAdapt AMac c2 => con_eqb c1 c2
  | CAdapt AIp c1, CAdapt AIp c2 => con_eqb c1 c2
  | CPaddedString (EGet k), CPaddedString (EGet k') => String.eqb k k'
  | _, _ => con_eqb c c'
  end.
Fixpoint fstrip (a f : fields) : option fields :=
  match a, f with
  | FNil, _ => Some f
  | FCons k c a', FCons k' c' f' => if String.eqb k k' && simple_eqb c c' then fstrip a' f' else None
  | _, _ => None
  end.
Definition shortb (ci cj : con) : bool :=
  match fsz ci with Some n => Nat.ltb n (minsz cj) | None => false end ||
  match ci, cj with
  | CStruct a, CStruct f => nostop a && match fstrip a f with Some b => Nat.ltb 0 (minszf b) | None => false end
  | _, _ => false
  end.
Definition int_pair (cj ci : con) : bool :=
  match cj, ci with
  | CAdapt (AEnum t) (CInt n sg), CInt n' sg' => Nat.eqb n n' && Bool.eqb sg sg'
  | _, _ => false
  end.
Definition exclb (dl : bool) (cj ci : con) : bool :=
  int_pair cj ci ||
  (negb dl && match keys_of ci with Some ks => missb ks cj | None => false end && shortb ci cj).

(** where a counter is rebuilt from a list, the list is read with that counter *)
Fixpoint flookup (j : string) (fs : fields) : option con :=
  match fs with
  | FCons k c fs' => if String.eqb j k then Some c else flookup j fs'
  | FRebuild k _ c fs' => if String.eqb j k then None else flookup j fs'
  | _ => None
  end.
Fixpoint all_arrays (k : string) (cs : cases) : bool :=
  match cs with
  | KNil => true
  | KCons _ _ (CArray (EGet k') _) cs' => String.eqb k k' && all_arrays k cs'
  | KCons _ _ _ _ => false
  end.
(** every member of [t] has its case, under its own name *)
Definition enum_cases (t : enum) (cs : cases) : bool :=
  forallb (fun p => match by_value t (snd p), find_case (snd p) cs with
                    | Some (VEnum n _), Some (n', _) => String.eqb n n'
                    | _, _ => false
                    end) t.
Definition counted (k : string) (e : expr) (fs : fields) : bool :=
  match e with
  | ELen j => match flookup j fs with Some (CArray (EGet k') _) => String.eqb k k' | _ => false end
  | ELenVals j => match flookup j fs with
                  | Some (CBytewise (CEnumSwitchStruct f cs)) =>
                      all_arrays k cs && match flookup f fs with
                                         | Some c => match kind_of c with Some (KE t) => enum_cases t cs | _ => false end
                                         | None => false
                                         end
                  | _ => false
                  end
  | _ => false
  end.
Fixpoint allcons (fs : fields) : bool := match fs with FNil => true | FCons _ _ fs' => allcons fs' | _ => false end.
(** a header naming the property (of table [t]) whose value follows; its keys are not property names *)
Definition idfield (k : string) (t : enum) (hdr : con) : bool :=
  match hdr with
  | CStruct fs =>
      allcons fs && negb (smem raw_name (names fs)) && forallb (fun p => negb (smem (lower (fst p)) (names fs))) t
      && match flookup k fs with
         | Some c => match kind_of c with Some (KE t') | Some (KP t') => enum_eqb t t' | _ => false end
         | None => false
         end
  | _ => false
  end.
(** the cases bear the names of the members *)
Definition case_names (t : enum) (cs : cases) : bool :=
  forallb (fun p => match by_value t (snd p), find_case (snd p) cs with
                    | Some (VEnum n _), Some (n', _) => String.eqb n n'
                    | _, None => true
                    | _, _ => false
                    end) t.
(** two forms with the same unsigned fields, the first at least as wide as the second *)
Fixpoint wider (f g : fields) : bool :=
  match f, g with
  | FNil, FNil => true
  | FCons k (CInt n false) f', FCons j (CInt m false) g' => String.eqb k j && Nat.leb m n && wider f' g'
  | _, _ => false
  end.
Definition wide_select (l : alts) : bool :=
  match l with
  | ACons (CNamed n (CStruct f)) (ACons (CNamed m (CStruct g)) ANil) =>
      match f with FNil => false | _ => true end && wider f g && vis n && distinct (names f) && negb (smem n (names f))
  | _ => false
  end.
Section Check.
(** [adok k dl a c]: the adapter [a] over [c], under the key [k], is covered *)
Variable adok : option string -> bool -> adapter -> con -> bool.
Fixpoint snd_ok (te : tenv) (dl : bool) (k : option string) (c : con) {struct c} : bool :=
  match c with
  | CInt _ _ | CBytesInt _ _ | CBits _ _ | CFlag | CIeee _ | CBytes _ | CPascalString | CPrefixedBytes | COpcode _ => true
  | CGreedyBytes | CGreedyString => negb dl
  | CPaddedString e => expr_ok te e
  | CPrefixedArray c1 => snd_ok te true None c1 && snd_ok te dl None c1
  | CArray e c1 => expr_ok te e && snd_ok te true None c1 && snd_ok te dl None c1
  | CGreedyRange c1 => negb dl && snd_ok te true None c1 && snd_ok te false None c1
  | CStruct fs => distinct (names fs) && sndf_ok [] dl fs
  | CBitwise c1 | CBytewise c1 => snd_ok te dl None c1
  | CReversed _ c1 => snd_ok te false None c1
  | CAdapt a c1 => adok k dl a c1
  | CSelect l => wide_select l || snda_ok te dl [] l
  | CNamed name c1 =>
      chain c1 && vis name && match keys_of c1 with Some ks => negb (smem name ks) | None => false end && snd_ok te dl None c1
  | CSwitch j cs => match tget j te with Some _ => sndk_ok te dl cs | None => false end
  | CEnumSwitchStruct j cs =>
      match tget j te with Some (KE t) => enum_cases t cs && sndk_ok te dl cs | _ => false end
  | CIfDefault j c1 _ => match tget j te with Some KI => snd_ok te dl None c1 | _ => false end
  | CSwitchStruct j kc t sw cs =>
      match kind_of kc with Some (KE t') => enum_eqb t t' | _ => false end
      && snd_ok [] true None kc && negb (String.eqb j sw)
      && forallb (fun p => negb (String.eqb (lower (fst p)) j)) t
      && sndk_ok [(j, KE t)] dl cs
  | CProp hdr t cs => idfield "property_id" t hdr && case_names t cs && snd_ok te true None hdr && sndk_ok te dl cs
  | CSensorSetting hdr t cs => idfield sid_name t hdr && negb dl && snd_ok te true None hdr && sndk_ok te dl cs
  | CSensorData _ _ => false
  end
with sndf_ok (te : tenv) (dl : bool) (fs : fields) {struct fs} : bool :=
  match fs with
  | FNil => true
  | FCons k c fs' => snd_ok te (match fs' with FNil => dl | _ => true end) (Some k) c && sndf_ok (tadd k (kind_of c) te) dl fs'
  | FDefault k c _ fs' =>
      match c with CGreedyRange _ => true | _ => false end
      && snd_ok te (match fs' with FNil => dl | _ => true end) (Some k) c && sndf_ok te dl fs'
  | FRebuild k e c fs' =>
      match kind_of c with Some KI => true | _ => false end && counted k e fs'
      && snd_ok te (match fs' with FNil => dl | _ => true end) (Some k) c && sndf_ok ((k, KI) :: te) dl fs'
  | FPad k _ fs' => match k with Some k => hidden k | None => true end && sndf_ok te dl fs'
  | FStopIf k fs' => match tget k te with Some KI => sndf_ok te dl fs' | _ => false end
  | FBits _ bs fs' => sndf_ok [] false bs && sndf_ok te dl fs'
  end
with sndk_ok (te : tenv) (dl : bool) (cs : cases) {struct cs} : bool :=
  match cs with KNil => true | KCons _ _ c cs' => snd_ok te dl None c && sndk_ok te dl cs' end
with snda_ok (te : tenv) (dl : bool) (prev : list con) (l : alts) {struct l} : bool :=
  match l with
  | ANil => true
  | ACons c l' => snd_ok te dl None c && forallb (fun cj => exclb dl cj c) prev && snda_ok te dl (c :: prev) l'
  end.
End Check.

(** ** Values *)
Definition has_kind (kd : kind) (v : val) : Prop :=
  match kd with
  | KI => exists z, v = VInt z
  | KE t => exists n z, v = VEnum n z /\ by_value t z = Some v
  | KP t => exists z, as_int v = Some z /\ match by_value t z with Some m => v = m | None => v = VInt z end
  end.
Definition typed (te : tenv) (ctx ep : dict) : Prop :=
  forall k kd, tget k te = Some kd -> hidden k = false /\ exists v, dget k ctx = Some v /\ dget k ep = Some v /\ has_kind kd v.
Definition ext (a b : dict) : Prop := forall k x, hidden k = false -> dget k a = Some x -> dget k b = Some x.
Definition eqvd (d d' : dict) : Prop := Forall2 (fun p q => fst p = fst q /\ eqv (snd p) (snd q)) d d'.
Definition rel (d d' : dict) : Prop := eqvd (pubd d) d'.

Lemma eqvd_refl d : eqvd d d.
Proof. induction d; constructor; [split; [reflexivity|apply eqv_refl]|assumption]. Qed.
Lemma eqvd_dset k x x' d : forall d', eqvd d d' -> eqv x x' -> eqvd (dset k x d) (dset k x' d').
Proof.
  induction d as [|[j y] d IH]; intros d' H E; inversion H as [|p q ? ? [H1 H2] H3]; subst.
  - constructor; [split; [reflexivity|exact E]|constructor].
  - destruct q as [j' y']. cbn in *. subst j'. destruct (String.eqb k j); constructor; try (split; cbn; auto; fail); [exact H3|now apply IH].
Qed.
Lemma rel_dset k x x' d d' : hidden k = false -> rel d d' -> eqv (pub x) x' -> rel (dset k x d) (dset k x' d').
Proof. intros Hk R E. unfold rel. rewrite pubd_dset by exact Hk. now apply eqvd_dset. Qed.
Lemma eqvd_dmerge b : forall b' a a', eqvd b b' -> eqvd a a' -> eqvd (dmerge a b) (dmerge a' b').
Proof.
  induction b as [|[k x] b IH]; intros b' a a' H Ha; inversion H as [|p [k' x'] ? ? [H1 H2] H3]; subst; [exact Ha|].
  cbn in *. subst k'. apply IH; [exact H3|]. now apply eqvd_dset.
Qed.
Lemma eqv_vdict d d' : rel d d' -> eqv (pub (VDict d)) (VDict d').
Proof. intros H. rewrite pub_dict. now apply eqv_dict. Qed.

Lemma lossless_dict u d k x : lossless u (VDict d) -> In (k, x) d -> lossless u x /\ survives u k x.
Proof. intros H Hin. split; [|apply H; now constructor]. intros j y Hy. apply H. eapply entry_dict; eauto. Qed.
Lemma lossless_list u l x : lossless u (VList l) -> In x l -> lossless u x.
Proof. intros H Hin j y Hy. apply H. eapply entry_list; eauto. Qed.
Lemma dget_In k d x : dget k d = Some x -> In (k, x) d.
Proof.
  induction d as [|[j y] d IH]; [discriminate|]. cbn [dget]. destruct (String.eqb_spec k j); [|right; auto].
  intros [= ->]. subst. now left.
Qed.
Lemma ext_refl d : ext d d. Proof. intros k x _ H. exact H. Qed.
Lemma ext_dset d e k x : ext d e -> dget k d = Some x -> ext d (dset k x e).
Proof.
  intros H Hk j y Hj Hy. destruct (string_dec j k) as [-> |Hn]; [rewrite dget_dset_eq; congruence|].
  rewrite dget_dset_neq by exact Hn. now apply H.
Qed.
Lemma ext_dset_hidden d e k x : ext d e -> hidden k = true -> ext d (dset k x e).
Proof.
  intros H Hk j y Hj Hy. destruct (string_dec j k) as [-> |Hn]; [congruence|].
  rewrite dget_dset_neq by exact Hn. now apply H.
Qed.

(** ** Preservation of earlier fields *)
Ltac andb H := repeat match type of H with _ && _ = true => let H' := fresh H in apply andb_prop in H as [H H'] end.
Lemma dget_dmerge b : forall a k, NoDup (keys b) -> dget k (dmerge a b) = match dget k b with Some x => Some x | None => dget k a end.
Proof.
  induction b as [|[j y] b IH]; intros a k Hn; [reflexivity|]. cbn [keys map fst] in Hn. inversion_clear Hn as [|? ? H1 H2].
  cbn [dmerge dget]. rewrite IH by exact H2. destruct (String.eqb_spec k j) as [-> |Hj].
  - replace (dget j b) with (@None val) by (symmetry; apply dget_None_in; exact H1). apply dget_dset_eq.
  - destruct (dget k b); [reflexivity|]. now apply dget_dset_neq.
Qed.
Lemma copy_eq bs bd s r o : flat_bits bs = true -> parse_fields bs [] s = Ok (bd, r) ->
  copy_named bs bd o = dmerge o bd /\ NoDup (keys bd) /\ bit_names bs = Some (keys bd).
Proof.
  unfold flat_bits. destruct (bit_names bs) as [l|] eqn:En; [|discriminate]. intros Hd H.
  destruct (flat_keys bs l [] s bd r En Hd ltac:(auto) H) as (d1 & -> & Hk). cbn [app] in *.
  assert (N : NoDup (keys d1)) by (rewrite Hk; now apply distinct_NoDup).
  split; [|split; [exact N|now rewrite Hk]].
  rewrite (copy_named_merge bs l d1 _ En).
  - rewrite <- Hk. apply dmerge_keys; [exact N|]. exists []. reflexivity.
  - intros k Hin E. rewrite <- Hk in Hin. apply dget_None_in in E. tauto.
Qed.
(** what is left of the stream is still made of bytes (bits) *)
Lemma units_take m n s a r : take n s = Ok (a, r) -> units m s -> units m a /\ units m r.
Proof. intros H U. apply take_ok in H as [-> _]. now apply Forall_app in U. Qed.
Lemma times_units m (p : list Z -> res (val * list Z)) n : forall s l r,
  (forall s v r, units m s -> p s = Ok (v, r) -> units m r) -> units m s -> times_parse p n s = Ok (l, r) -> units m r.
Proof.
  induction n as [|n IH]; intros s l r Hp U H; cbn [times_parse] in H; [now injection H as <- <-|].
  apply bind_ok in H as ([v r1] & E & H). apply bind_ok in H as ([l' r2] & E2 & H). injection H as <- <-. exact (IH r1 l' r2 Hp (Hp _ _ _ U E) E2).
Qed.
Lemma greedy_units m (p : list Z -> res (val * list Z)) n : forall s l r,
  (forall s v r, units m s -> p s = Ok (v, r) -> units m r) -> units m s -> greedy p n s = Ok (l, r) -> units m r.
Proof.
  induction n as [|n IH]; intros s l r Hp U H; cbn [greedy] in H; [discriminate|].
  destruct (p s) as [[v r1]|e|] eqn:E; [|now injection H as <- <-|discriminate].
  destruct (Nat.ltb _ _); [|discriminate]. apply bind_ok in H as ([l' r2] & E2 & H). injection H as <- <-. exact (IH r1 l' r2 Hp (Hp _ _ _ U E) E2).
Qed.
Lemma opcode_units s z r : opcode_parse s = Ok (z, r) -> units false s -> units false r.
Proof.
  unfold opcode_parse. intros H U. destruct s as [|b0 s]; [discriminate|]. destruct (b0 =? 127); [discriminate|].
  inversion_clear U as [|? ? _ U1]. destruct (b0 <? 128); [now injection H as _ <-|].
  destruct s as [|b1 s]; [discriminate|]. inversion_clear U1 as [|? ? _ U2]. destruct (b0 <? 192); [now injection H as _ <-|].
  destruct s as [|b2 s]; [discriminate|]. inversion_clear U2 as [|? ? _ U3]. now injection H as _ <-.
Qed.
Lemma bits_bytes l bs r : bits l -> bits2bytes l = (bs, r) -> bytes bs /\ bits r /\ l = bytes2bits bs ++ r.
Proof. intros U E. destruct (bits2bytes_spec l U bs r E) as (H1 & H2 & H3). subst l. apply Forall_app in U as [_ U]. auto. Qed.
Lemma parse_units_mut :
  (forall c m ctx s v r, wf m c = true -> units m s -> parse c ctx s = Ok (v, r) -> units m r) /\
  (forall fs m obj s d r, wff m fs = true -> units m s -> parse_fields fs obj s = Ok (d, r) -> units m r) /\
  (forall cs m z ctx s v r, wfk m cs = true -> units m s -> parse_case z cs ctx s = Ok (v, r) -> units m r) /\
  (forall l m ctx s v r, wfa m l = true -> units m s -> parse_alts l ctx s = Ok (v, r) -> units m r).
Proof.
  apply con_mutind.
  all: try (intros n sg m ctx s v r W U H; cbn [parse] in H; apply bind_ok in H as ([a r0] & T & H); injection H as _ <-; now apply (units_take _ _ _ _ _ T) in U).
  all: try (intros n m ctx s v r W U H; cbn [parse] in H; apply bind_ok in H as ([a r0] & T & H); injection H as _ <-; now apply (units_take _ _ _ _ _ T) in U).
  - intros m ctx s v r W U H. cbn [parse] in H. destruct s; [discriminate|]. injection H as _ <-. now inversion U.
  - intros m ctx s v r W U H. cbn [parse] in H. injection H as _ <-. constructor.
  - intros m ctx s v r W U H. cbn [parse] in H. destruct (utf8_decode s); [|discriminate]. injection H as _ <-. constructor.
  - intros e m ctx s v r W U H. cbn [parse] in H. apply bind_ok in H as (n & _ & H). destruct (n <? 0); [discriminate|].
    apply bind_ok in H as ([a r0] & T & H). destruct (utf8_decode _); [|discriminate]. injection H as _ <-. now apply (units_take _ _ _ _ _ T) in U.
  - intros m ctx s v r W U H. cbn [parse] in H. destruct s as [|b s]; [discriminate|]. inversion_clear U.
    apply bind_ok in H as ([a r0] & T & H). destruct (utf8_decode _); [|discriminate]. injection H as _ <-. now apply (units_take m _ _ _ _ T).
  - intros m ctx s v r W U H. cbn [parse] in H. destruct s as [|b s]; [discriminate|]. inversion_clear U.
    apply bind_ok in H as ([a r0] & T & H). injection H as _ <-. now apply (units_take m _ _ _ _ T).
  - intros c IH m ctx s v r W U H. cbn [parse wf] in *. andb W. destruct s as [|b s]; [discriminate|]. inversion_clear U.
    apply bind_ok in H as ([l r0] & T & H). injection H as _ <-. eapply times_units; [|eassumption|exact T]. intros; eauto.
  - intros e c IH m ctx s v r W U H. cbn [parse wf] in *. andb W. apply bind_ok in H as (n & _ & H). destruct (n <? 0); [discriminate|].
    apply bind_ok in H as ([l r0] & T & H). injection H as _ <-. eapply times_units; [|eassumption|exact T]. intros; eauto.
  - intros c IH m ctx s v r W U H. cbn [parse wf] in *. andb W. apply bind_ok in H as ([l r0] & T & H). injection H as _ <-.
    eapply greedy_units; [|eassumption|exact T]. intros; eauto.
  - intros fs IH m ctx s v r W U H. cbn [parse wf] in *. apply bind_ok in H as ([d r0] & T & H). injection H as _ <-. eauto.
  - intros c IH m ctx s v r W U H. cbn [parse wf] in *. andb W. destruct m; [discriminate|]. apply bind_ok in H as ([w r0] & T & H).
    destruct (bits2bytes r0) as [bs lo] eqn:E. destruct lo; [|discriminate]. injection H as _ <-.
    apply (bits_bytes r0 bs []); [|exact E]. refine (IH true _ _ _ _ _ _ T); [assumption|apply bytes2bits_bits].
  - intros c IH m ctx s v r W U H. cbn [parse wf] in *. andb W. destruct m; [|discriminate]. destruct (bits2bytes s) as [bs lo] eqn:E.
    destruct (bits_bytes _ _ _ U E) as (B1 & B2 & _). apply bind_ok in H as ([w r0] & T & H). injection H as _ <-.
    apply units_app; [apply bytes2bits_bits|exact B2].
  - intros n c IH m ctx s v r W U H. cbn [parse wf] in *. apply bind_ok in H as ([a r0] & T & H). apply bind_ok in H as ([w r1] & T1 & H).
    destruct r1; [|discriminate]. injection H as _ <-. now apply (units_take _ _ _ _ _ T) in U.
  - intros a c IH m ctx s v r W U H. cbn [parse wf] in *. apply bind_ok in H as ([w r0] & T & H). apply bind_ok in H as (v0 & _ & H). injection H as _ <-. eauto.
  - intros l IH m ctx s v r W U H. cbn [parse wf] in *. eauto.
  - intros name c IH m ctx s v r W U H. cbn [parse wf] in *. apply bind_ok in H as ([w r0] & T & H). destruct w; try discriminate. injection H as _ <-. eauto.
  - intros k cs IH m ctx s v r W U H. cbn [parse wf] in *. andb W. apply bind_ok in H as (kv & _ & H). destruct (int_key kv); [eauto|]. now injection H as _ <-.
  - intros k cs IH m ctx s v r W U H. cbn [parse wf] in *. andb W. apply bind_ok in H as (kv & _ & H). destruct kv; try discriminate.
    apply bind_ok in H as ([w r0] & T & H). injection H as _ <-. eauto.
  - intros k c IH d m ctx s v r W U H. cbn [parse wf] in *. andb W. apply bind_ok in H as (kv & _ & H). destruct (truthy kv); [eauto|]. now injection H as _ <-.
  - intros t m ctx s v r W U H. cbn [parse wf] in *. apply bind_ok in H as ([z r0] & T & H). destruct m; [discriminate|].
    destruct (by_value t z); [|discriminate]. injection H as _ <-. eapply opcode_units; eauto.
  - intros k kc IHk t sw cs IH m ctx s v r W U H. cbn [parse wf] in *. andb W. apply bind_ok in H as ([kv r0] & T & H). destruct kv; try discriminate.
    apply bind_ok in H as ([w r1] & T1 & H). injection H as _ <-. refine (IH _ _ _ _ _ _ _ _ T1); [eassumption|]. eapply IHk; eassumption.
  - intros h IHh t cs IH m ctx s v r W U H. cbn [parse wf] in *. andb W. apply bind_ok in H as ([hv r0] & T & H). destruct hv; try discriminate.
    apply bind_ok in H as (idv & _ & H). apply bind_ok in H as (z & _ & H). destruct (by_value t z) as [[]|]; try discriminate.
    destruct (find_case _ cs); [|discriminate]. apply bind_ok in H as ([w r1] & T1 & H). injection H as _ <-. refine (IH _ _ _ _ _ _ _ _ T1); [eassumption|]. eapply IHh; eassumption.
  - intros h IHh t cs IH m ctx s v r W U H. cbn [parse wf] in *. andb W. apply bind_ok in H as ([hv r0] & T & H). destruct hv; try discriminate.
    apply bind_ok in H as (idv & _ & H). destruct (setting_id t idv) as [idv' nm]. apply bind_ok in H as (z & _ & H).
    destruct (find_case z cs); [|injection H as _ <-; constructor]. apply bind_ok in H as ([w r1] & T1 & H). injection H as _ <-. refine (IH _ _ _ _ _ _ _ _ T1); [eassumption|]. eapply IHh; eassumption.
  - intros t cs IH m ctx s v r W U H. cbn [parse wf] in *. destruct s as [|b0 [|b1 s1]]; try discriminate.
    apply bind_ok in H as ([[[fmt len] pid] s2] & T & H).
    assert (U2 : units m s2).
    { inversion_clear U as [|? ? _ U1]. inversion_clear U1 as [|? ? _ U2]. destruct (Z.odd b0).
      - destruct s1; [discriminate|]. injection T as _ _ _ <-. now inversion U2.
      - now injection T as _ _ _ <-. }
    assert (U3 : units m (skipn (Z.to_nat len) s2)) by (rewrite <- (firstn_skipn (Z.to_nat len) s2) in U2; now apply Forall_app in U2).
    destruct (setting_id t (VInt pid)). destruct (find_case pid cs); [|now injection H as _ <-].
    apply bind_ok in H as ([w r1] & T1 & H). now injection H as _ <-.
  - intros m obj s d r W U H. cbn in H. now injection H as _ <-.
  - intros k c IHc fs IH m obj s d r W U H. cbn [parse_fields wff] in *. andb W. apply bind_ok in H as ([v r0] & T & H). eapply IH; [eassumption| |exact H]. eapply IHc; eassumption.
  - intros k c IHc dv fs IH m obj s d r W U H. cbn [parse_fields wff] in *. andb W. apply bind_ok in H as ([v r0] & T & H). eapply IH; [eassumption| |exact H]. eapply IHc; eassumption.
  - intros k e c IHc fs IH m obj s d r W U H. cbn [parse_fields wff] in *. andb W. apply bind_ok in H as ([v r0] & T & H). eapply IH; [eassumption| |exact H]. eapply IHc; eassumption.
  - intros k n fs IH m obj s d r W U H. cbn [parse_fields wff] in *. apply bind_ok in H as ([v r0] & T & H). eapply IH; [eassumption| |exact H]. now apply (units_take _ _ _ _ _ T) in U.
  - intros k fs IH m obj s d r W U H. cbn [parse_fields wff] in *. andb W. apply bind_ok in H as (v & _ & H). destruct (match num_of v with Some q => Qzero q | None => false end); [now injection H as _ <-|]. eauto.
  - intros n bs IHb fs IH m obj s d r W U H. cbn [parse_fields wff] in *. andb W. apply bind_ok in H as ([a r0] & T & H). apply bind_ok in H as ([bd r1] & Tb & H).
    destruct r1; [|discriminate]. eapply IH; [eassumption| |exact H]. now apply (units_take _ _ _ _ _ T) in U.
  - intros m z ctx s v r W U H. cbn in H. now injection H as _ <-.
  - intros n w c IHc cs IH m z ctx s v r W U H. cbn [parse_case wfk] in *. andb W. destruct (z =? w); eauto.
  - intros m ctx s v r W U H. discriminate.
  - intros c IHc l IH m ctx s v r W U H. cbn [parse_alts wfa] in *. andb W. destruct (parse c ctx s) as [[w r0]|e|] eqn:E; [|eauto|discriminate].
    injection H as <- <-. eauto.
Qed.
Lemma parse_units c m ctx s v r : wf m c = true -> units m s -> parse c ctx s = Ok (v, r) -> units m r.
Proof. apply parse_units_mut. Qed.
Section Main.
Variable u : bool.
Variable adok : option string -> bool -> adapter -> con -> bool.
Notation snd_ok := (snd_ok adok).
Notation sndf_ok := (sndf_ok adok).
Notation sndk_ok := (sndk_ok adok).
Notation snda_ok := (snda_ok adok).

Lemma names_bit bs : forall l te dl k, bit_names bs = Some l -> sndf_ok te dl bs = true -> hidden k = false -> In k l -> In k (names bs).
Proof.
  induction bs as [|k c fs IH|k c dv fs IH|k e c fs IH|k n fs IH|k fs IH|n b IHb fs IH]; intros l te dl k0 H S Hv Hin; cbn [bit_names] in H; try discriminate.
  1: { injection H as <-. destruct Hin. }
  4: destruct k as [k|]; [|cbn [names]; cbn in S; eauto].
  all: destruct (bit_names fs) as [l'|]; [|discriminate]; injection H as <-; cbn [names]; cbn in S; andb S.
  1-3: destruct Hin as [-> |Hin]; [now left|right; eapply IH; eauto].
  destruct Hin as [-> |Hin]; [congruence|]. eapply IH; eauto.
Qed.
Lemma kept fs : forall te dl m obj s d r k, wff m fs = true -> sndf_ok te dl fs = true -> parse_fields fs obj s = Ok (d, r) ->
  hidden k = false -> ~ In k (names fs) -> dget k d = dget k obj.
Proof.
  induction fs as [|j c fs IH|j c dv fs IH|j e c fs IH|j n fs IH|j fs IH|n b IHb fs IH]; intros te dl m obj s d r k W S H Hv Hn; cbn in S; cbn in W; andb S; andb W; cbn [names] in Hn.
  - cbn in H. now injection H as <- _.
  - cbn [parse_fields] in H. apply bind_ok in H as ([v s'] & _ & H). rewrite (IH _ _ _ _ _ _ _ k W0 S0 H Hv) by (intros K; apply Hn; now right).
    apply dget_dset_neq. intros ->. apply Hn. now left.
  - cbn [parse_fields] in H. apply bind_ok in H as ([v s'] & _ & H). rewrite (IH _ _ _ _ _ _ _ k W0 S0 H Hv) by (intros K; apply Hn; now right).
    apply dget_dset_neq. intros ->. apply Hn. now left.
  - cbn [parse_fields] in H. apply bind_ok in H as ([v s'] & _ & H). rewrite (IH _ _ _ _ _ _ _ k W0 S0 H Hv) by (intros K; apply Hn; now right).
    apply dget_dset_neq. intros ->. apply Hn. now left.
  - cbn [parse_fields] in H. apply bind_ok in H as ([v s'] & _ & H). rewrite (IH _ _ _ _ _ _ _ k W S0 H Hv Hn).
    destruct j as [j|]; [|reflexivity]. apply dget_dset_neq. intros ->. congruence.
  - cbn [parse_fields] in H. apply bind_ok in H as (v & _ & H). destruct (tget j te) as [[| |]|]; try discriminate.
    destruct (match num_of v with Some q => Qzero q | None => false end); [now injection H as <- _|]. eapply IH; eauto.
  - cbn [parse_fields] in H. apply bind_ok in H as ([a s'] & _ & H). apply bind_ok in H as ([bd r'] & Hb & H). destruct r'; [|discriminate].
    rewrite (IH _ _ _ _ _ _ _ k W0 S0 H Hv) by (intros K; apply Hn, in_or_app; now right).
    destruct (copy_eq b bd _ _ (dset "_" (VDict bd) obj) ltac:(eassumption) Hb) as (E & N & En). rewrite E, dget_dmerge by exact N.
    destruct (dget k bd) as [x|] eqn:Ex.
    + exfalso. apply Hn, in_or_app. left. eapply names_bit; [exact En|eassumption|exact Hv|].
      apply dget_In in Ex. unfold keys. apply in_map_iff. exists (k, x). auto.
    + apply dget_dset_neq. intros ->. discriminate.
Qed.

(** ** Kinds *)
Lemma kp_shape l kd : kind_of (CSelect l) = Some kd -> exists t n sg, l = ACons (CAdapt (AEnum t) (CInt n sg)) (ACons (CInt n sg) ANil) /\ kd = KP t.
Proof.
  cbn [kind_of]. intros K. destruct l as [|c l]; [discriminate|]. destruct c; try discriminate. destruct a; try discriminate. destruct c; try discriminate.
  destruct l as [|c l]; [discriminate|]. destruct c; try discriminate. destruct l; [|discriminate].
  destruct (Nat.eqb_spec n n0); [|discriminate]. destruct (Bool.eqb sg sg0) eqn:E; [|discriminate]. apply Bool.eqb_prop in E. cbn in K. injection K as <-. subst. eauto 6.
Qed.
Lemma kind_parse c kd ctx s v r : kind_of c = Some kd -> parse c ctx s = Ok (v, r) -> has_kind kd v.
Proof.
  destruct c; cbn [kind_of]; intros K H; try discriminate.
  1-3: injection K as <-; cbn [parse] in H; apply bind_ok in H as ([l r0] & _ & H); injection H as <- _; eexists; reflexivity.
  - destruct a; try discriminate. injection K as <-. cbn [parse] in H. apply bind_ok in H as ([w r0] & _ & H). apply bind_ok in H as (x & D & H). injection H as <- _.
    cbn [decode] in D. unfold enum_decode in D. destruct (as_int w) as [z|]; [|discriminate]. destruct (by_value t z) as [y|] eqn:E; [|discriminate]. injection D as <-.
    destruct (by_value_enum _ _ _ E) as (n & -> & _). cbn [has_kind]. eauto.
  - apply kp_shape in K as (t & n & sg & -> & ->). cbn [parse parse_alts] in H. destruct (take n s) as [[a r0]|e|]; cbn [bind] in H; try discriminate.
    cbn [decode] in H. unfold enum_decode in H. cbn [as_int] in H. set (z := int_of n sg a) in *. destruct (by_value t z) as [y|] eqn:E; cbn [bind] in H; injection H as <- _.
    + destruct (by_value_enum _ _ _ E) as (n' & -> & _). exists z. split; [reflexivity|]. now rewrite E.
    + exists z. split; [reflexivity|]. now rewrite E.
  - injection K as <-. cbn [parse] in H. apply bind_ok in H as ([z r0] & _ & H). destruct (by_value t z) as [y|] eqn:E; [|discriminate]. injection H as <- _.
    destruct (by_value_enum _ _ _ E) as (n & -> & _). cbn [has_kind]. eauto.
Qed.
Lemma kind_conf c kd dl eb ep v v' : kind_of c = Some kd -> has_kind kd v -> conf A_spec c dl eb ep v v' -> v' = v.
Proof.
  destruct c; cbn [kind_of]; intros K H C; try discriminate.
  1-3: injection K as <-; destruct H as (z & ->); cbn [conf as_int] in C; destruct C as (z' & E & _ & ->); now injection E as <-.
  - destruct a; try discriminate. injection K as <-. destruct H as (n & z & -> & B). cbn [conf] in C. destruct C as (w & w' & A & _).
    cbn [A_spec] in A. destruct A as (n' & z' & M & [E|(x & E & _)] & _ & _ & ->); [|discriminate]. cbn in E. injection E as <-.
    rewrite (member_by_value _ _ _ M) in B. now injection B as ->.
  - apply kp_shape in K as (t & n & sg & -> & ->). destruct H as (z & Ez & B). cbn [conf conf_alts] in C. destruct C as [[(w & w' & A & _) _]|[[(z' & E & _ & ->) F]|[]]].
    + cbn [A_spec] in A. destruct A as (n' & z' & M & [E|(x & E & _)] & _ & _ & ->); [|subst; discriminate]. rewrite E in Ez. injection Ez as ->.
      rewrite (member_by_value _ _ _ M) in B. now subst.
    + rewrite E in Ez. injection Ez as ->. inversion_clear F as [|? ? X _]. destruct X as [(t' & n' & sg' & z' & E1 & E2 & E3 & E4)|(_ & [] & _)].
      injection E1 as -> _ _. rewrite E in E3. injection E3 as <-. rewrite E4 in B. now subst.
  - injection K as <-. destruct H as (n & z & -> & B). cbn [conf as_int] in C. destruct C as (z' & E & _ & E2). injection E as <-. rewrite E2 in B. now injection B as ->.
Qed.
Lemma kind_int kd v : has_kind kd v -> exists z, as_int v = Some z.
Proof. destruct kd; [intros (z & ->)|intros (n & z & -> & _)|intros (z & H & _)]; cbn; eauto. Qed.
Lemma kind_pub kd v : has_kind kd v -> pub v = v.
Proof.
  destruct kd; [intros (z & ->)|intros (n & z & -> & _)|intros (z & H & M)]; try reflexivity.
  destruct (by_value t z) as [m|] eqn:E; subst; [|reflexivity]. destruct (by_value_enum _ _ _ E) as (n & -> & _). reflexivity.
Qed.

(** ** Alternatives *)
Lemma keys_parse c : forall ks te dl k m ctx s v r, keys_of c = Some ks -> wf m c = true -> snd_ok te dl k c = true -> parse c ctx s = Ok (v, r) ->
  exists d, v = VDict d /\ forall j, hidden j = false -> ~ In j ks -> dget j d = None.
Proof.
  induction c; intros ks te dl k0 m ctx s v r K W S H; cbn [keys_of] in K; try discriminate; cbn [parse] in H; cbn in S; cbn [wf] in W; andb S; andb W.
  - injection K as <-. apply bind_ok in H as ([d r0] & T & H). injection H as <- _. exists d. split; [reflexivity|]. intros j Hj Hn.
    rewrite (kept _ _ _ _ _ _ _ _ j W S0 T Hj Hn). reflexivity.
  - apply bind_ok in H as ([w r0] & T & H). destruct (bits2bytes r0) as [bs [|]]; [|discriminate]. injection H as <- _. eapply IHc; eassumption.
  - apply bind_ok in H as ([a r0] & _ & H). apply bind_ok in H as ([w r1] & T & H). destruct r1; [|discriminate]. injection H as <- _. eapply IHc; eassumption.
  - apply bind_ok in H as ([w r0] & T & H). destruct w; try discriminate. injection H as <- _.
    edestruct (IHc ks) as (d1 & E & Hd); [eassumption..|]. injection E as ->. eexists. split; [reflexivity|]. intros j Hj Hn.
    rewrite dget_dset_neq; [now apply Hd|]. intros ->. discriminate.
Qed.
Lemma smem_not k l : negb (smem k l) = true -> ~ In k l.
Proof. intros H. apply existsb_string. now apply negb_true_iff in H. Qed.
Lemma missbf_missing fs ks d : missbf ks fs = true -> (forall j, hidden j = false -> ~ In j ks -> dget j d = None) -> missing_f fs d.
Proof.
  induction fs; cbn [missbf missing_f]; intros H Hd; auto; try discriminate.
  apply orb_prop in H as [H|H]; [left|right; auto]. apply andb_prop in H as [H1 H2]. apply Hd; [now apply vis_hidden|now apply smem_not].
Qed.
Lemma missb_missing c ks d : missb ks c = true -> (forall j, hidden j = false -> ~ In j ks -> dget j d = None) -> missing c (VDict d).
Proof.
  induction c; cbn [missb missing]; intros H Hd; auto; try discriminate.
  - exists d. split; [reflexivity|]. eapply missbf_missing; eauto.
  - apply andb_prop in H as [H H2]. apply andb_prop in H as [H0 H1]. exists d. split; [reflexivity|]. split; [|auto].
    apply Hd; [now apply vis_hidden|now apply smem_not].
Qed.
Lemma simple_eqb_eq c c' : simple_eqb c c' = true -> c = c'.
Proof.
  assert (K : forall c c', con_eqb c c' = true -> c = c') by apply con_eqb_spec.
  unfold simple_eqb. intros H.
  destruct c; try (now apply K); try (destruct e; now apply K); try (destruct a; now apply K).
  - destruct e; try (now apply K). destruct c'; try (now apply K). destruct e; try (now apply K). apply String.eqb_eq in H. now subst.
  - destruct a; try (now apply K); destruct c'; try (now apply K); destruct a; try (now apply K); apply K in H; now subst.
Qed.
Lemma fstrip_fapp a : forall f b, fstrip a f = Some b -> f = fapp a b.
Proof.
  induction a; intros f b H; cbn [fstrip] in H; try discriminate; [injection H as ->; reflexivity|].
  destruct f; try discriminate. destruct (String.eqb k k0 && simple_eqb c c0) eqn:E; [|discriminate]. apply andb_prop in E as [E1 E2].
  apply String.eqb_eq in E1. apply simple_eqb_eq in E2. subst. cbn [fapp]. f_equal. auto.
Qed.
Lemma shortb_shorter ci cj : shortb ci cj = true -> shorter ci cj.
Proof.
  unfold shortb, shorter. intros H. apply orb_prop in H as [H|H].
  - left. destruct (fsz ci) as [n|]; [|discriminate]. apply Nat.ltb_lt in H. eauto.
  - right. destruct ci; try discriminate. destruct cj; try discriminate. apply andb_prop in H as [H1 H2].
    destruct (fstrip fs fs0) as [b|] eqn:E; [|discriminate]. apply Nat.ltb_lt in H2. apply fstrip_fapp in E. subst. eauto 6.
Qed.
Lemma exclb_excl dl cj ci te k m ctx s v r e : exclb dl cj ci = true -> wf m ci = true -> snd_ok te dl k ci = true ->
  parse ci ctx s = Ok (v, r) -> parse cj ctx s = Err e -> excl dl cj ci v.
Proof.
  unfold exclb, excl. intros H W S P Pj. apply orb_prop in H as [H|H].
  - left. unfold int_pair in H. destruct cj; try discriminate. destruct a; try discriminate. destruct cj; try discriminate. destruct ci; try discriminate.
    apply andb_prop in H as [H1 H2]. apply Nat.eqb_eq in H1. apply Bool.eqb_prop in H2. subst. cbn [parse] in P, Pj.
    destruct (take n0 s) as [[a r0]|e0|]; cbn [bind] in P, Pj; try discriminate. injection P as <- <-. do 4 eexists. split; [reflexivity|]. split; [reflexivity|].
    split; [reflexivity|]. cbn [decode] in Pj. unfold enum_decode in Pj. cbn [as_int] in Pj.
    destruct (by_value t _); [discriminate|reflexivity].
  - right. apply andb_prop in H as [H H2]. apply andb_prop in H as [H0 H1]. apply negb_true_iff in H0. split; [exact H0|].
    destruct (keys_of ci) as [ks|] eqn:K; [|discriminate]. destruct (keys_parse _ _ _ _ _ _ _ _ _ _ K W S P) as (d & -> & Hd).
    split; [eapply missb_missing; eauto|now apply shortb_shorter].
Qed.

(** ** Lists *)
Lemma times_elems m (p : list Z -> res (val * list Z)) n : forall s l r,
  (forall s v r, units m s -> p s = Ok (v, r) -> units m r) -> units m s -> times_parse p n s = Ok (l, r) ->
  length l = n /\ Forall (fun x => exists s r, units m s /\ p s = Ok (x, r)) l.
Proof.
  induction n as [|n IH]; intros s l r Hp U H; cbn [times_parse] in H; [injection H as <- <-; split; [reflexivity|constructor]|].
  apply bind_ok in H as ([v r1] & E & H). apply bind_ok in H as ([l' r2] & E2 & H). injection H as <- <-.
  destruct (IH r1 l' r2 Hp (Hp _ _ _ U E) E2) as (L & F). split; [cbn; congruence|]. constructor; eauto.
Qed.
Lemma greedy_elems m (p : list Z -> res (val * list Z)) n : forall s l r,
  (forall s v r, units m s -> p s = Ok (v, r) -> units m r) -> units m s -> greedy p n s = Ok (l, r) ->
  Forall (fun x => exists s r, units m s /\ p s = Ok (x, r)) l.
Proof.
  induction n as [|n IH]; intros s l r Hp U H; cbn [greedy] in H; [discriminate|].
  destruct (p s) as [[v r1]|e|] eqn:E; [|injection H as <- <-; constructor|discriminate].
  destruct (Nat.ltb _ _); [|discriminate]. apply bind_ok in H as ([l' r2] & E2 & H). injection H as <- <-.
  constructor; [eauto|]. exact (IH r1 l' r2 Hp (Hp _ _ _ U E) E2).
Qed.
Lemma list_conf (R : bool -> val -> val -> Prop) dl l :
  (forall x, In x l -> (exists x', R true x x' /\ eqv (pub x) x') /\ (exists x', R dl x x' /\ eqv (pub x) x')) ->
  exists l', conf_list R dl l l' /\ Forall2 eqv (map pub l) l'.
Proof.
  induction l as [|x l IH]; intros H; [exists []; split; [exact I|constructor]|].
  destruct IH as (l' & C & F); [intros; apply H; now right|]. destruct (H x ltac:(now left)) as ((x1 & R1 & E1) & (x2 & R2 & E2)).
  destruct l as [|y l].
  - exists (x2 :: l'). split; [split; assumption|]. cbn [map]. constructor; assumption.
  - exists (x1 :: l'). split; [split; assumption|]. cbn [map]. constructor; assumption.
Qed.

(** ** Counters *)
Lemma expr_conf te e ctx eb ep n : expr_ok te e = true -> vis_expr e = true -> typed te ctx ep -> ext ctx eb -> eval e ctx = Ok n ->
  eval_is e eb n /\ eval_is e ep n.
Proof.
  intros K V T X H. destruct e; try discriminate; cbn [eval eval_is expr_ok vis_expr] in *.
  - now injection H as ->.
  - destruct (tget k te) as [[| |]|] eqn:E; try discriminate. destruct (T _ _ E) as (_ & v & H1 & H2 & (z & ->)).
    unfold dgetr in H. rewrite H1 in H. cbn in H. injection H as <-. split; (exists (VInt z); split; [|reflexivity]); [|exact H2].
    apply X; [now apply vis_hidden|exact H1].
Qed.
Definition fresh (fs : fields) (obj : dict) : Prop := forall k, In k (names fs) -> dget k obj = None.
Lemma kept_ext fs te dl m obj s d r : wff m fs = true -> sndf_ok te dl fs = true -> parse_fields fs obj s = Ok (d, r) -> fresh fs obj -> ext obj d.
Proof.
  intros W S H F k x Hv Hx. rewrite (kept _ _ _ _ _ _ _ _ k W S H Hv); [exact Hx|]. intros K. apply F in K. congruence.
Qed.
Lemma fresh_next k v fs obj : smem k (names fs) = false -> (forall j, In j (k :: names fs) -> dget j obj = None) -> fresh fs (dset k v obj).
Proof.
  intros Hk F j Hj. rewrite dget_dset_neq; [apply F; now right|]. intros ->. apply existsb_string in Hk. tauto.
Qed.
Lemma flookup_parse j : forall fs te dl m obj s d r c, flookup j fs = Some c -> wff m fs = true -> sndf_ok te dl fs = true -> distinct (names fs) = true -> fresh fs obj ->
  parse_fields fs obj s = Ok (d, r) ->
  exists ctx s1 v r1, parse c ctx s1 = Ok (v, r1) /\ dget j d = Some v /\ ext ctx d /\ (forall k, ~ In k (names fs) -> dget k ctx = dget k obj).
Proof.
  induction fs as [|k c fs IHfs|k c dv fs IHfs|k e c fs IHfs|k n fs IHfs|k fs IHfs|n b ? fs IHfs]; intros te dl m obj s d r c0 F W S D Fr H; cbn [flookup] in F; try discriminate; cbn in S; cbn [wff] in W; cbn [names distinct] in D; unfold fresh in Fr; cbn [names] in Fr;
    pose proof H as H0; pose proof W as WW; cbn [parse_fields] in H; apply bind_ok in H as ([v r0] & P & H).
  - pose proof (kept_ext (FCons k c fs) te dl m obj s d r WW S H0 Fr) as EX. andb S; andb W; andb D.
    pose proof (fresh_next k v fs obj ltac:(now apply negb_true_iff in D) Fr) as Fr'.
    destruct (String.eqb_spec j k) as [-> |Hn].
    + injection F as ->. exists obj, s, v, r0. split; [exact P|]. split; [|split; auto].
      rewrite (kept _ _ _ _ _ _ _ _ k W0 S0 H); [apply dget_dset_eq|now apply vis_hidden|now apply smem_not].
    + destruct (IHfs _ _ _ _ _ _ _ _ F W0 S0 D0 Fr' H) as (ctx & s1 & v1 & r1 & P1 & G & K1 & K2). exists ctx, s1, v1, r1. split; [exact P1|]. split; [exact G|].
      split; [exact K1|]. cbn [names]. intros i Hi. rewrite K2 by (intros K; apply Hi; now right). apply dget_dset_neq. intros ->. apply Hi. now left.
  - andb S; andb W; andb D. destruct (String.eqb_spec j k) as [-> |Hn]; [discriminate|].
    pose proof (fresh_next k v fs obj ltac:(now apply negb_true_iff in D) Fr) as Fr'.
    destruct (IHfs _ _ _ _ _ _ _ _ F W0 S0 D0 Fr' H) as (ctx & s1 & v1 & r1 & P1 & G & K1 & K2). exists ctx, s1, v1, r1. split; [exact P1|]. split; [exact G|].
    split; [exact K1|]. cbn [names]. intros i Hi. rewrite K2 by (intros K; apply Hi; now right). apply dget_dset_neq. intros ->. apply Hi. now left.
Qed.
Lemma times_length (p : list Z -> res (val * list Z)) n : forall s l r, times_parse p n s = Ok (l, r) -> length l = n.
Proof.
  induction n as [|n IH]; intros s l r H; cbn [times_parse] in H; [now injection H as <- <-|].
  apply bind_ok in H as ([v r1] & E & H). apply bind_ok in H as ([l' r2] & E2 & H). injection H as <- <-. cbn. f_equal. eauto.
Qed.
Lemma array_count k c ctx s v r n : parse (CArray (EGet k) c) ctx s = Ok (v, r) -> dget k ctx = Some (VInt n) -> exists l, v = VList l /\ n = Z.of_nat (length l).
Proof.
  cbn [parse eval]. unfold dgetr. intros H G. rewrite G in H. cbn [bind as_intr as_int] in H. destruct (Z.ltb_spec n 0); [discriminate|].
  apply bind_ok in H as ([l r0] & T & H). injection H as <- _. exists l. split; [reflexivity|]. rewrite (times_length _ _ _ _ _ T). lia.
Qed.
Lemma case_count k cs : forall z ctx s v r n m c0, all_arrays k cs = true -> find_case z cs = Some (m, c0) -> parse_case z cs ctx s = Ok (v, r) -> dget k ctx = Some (VInt n) ->
  exists l, v = VList l /\ n = Z.of_nat (length l).
Proof.
  induction cs as [|nm w c cs IH]; intros z ctx s v r n m c0 A F H G; [discriminate|]. cbn [all_arrays] in A. destruct c; try discriminate. destruct e; try discriminate.
  apply andb_prop in A as [A1 A2]. apply String.eqb_eq in A1. subst. cbn [parse_case find_case] in *. destruct (z =? w); [|eauto]. eapply array_count; eauto.
Qed.
Lemma enum_cases_find t cs n z : enum_cases t cs = true -> by_value t z = Some (VEnum n z) -> exists c, find_case z cs = Some (n, c).
Proof.
  unfold enum_cases. rewrite forallb_forall. intros H B. destruct (by_value_enum _ _ _ B) as (n' & E & Hin). injection E as <-.
  specialize (H _ Hin). cbn [snd] in H. rewrite B in H. destruct (find_case z cs) as [[m c]|]; [|discriminate]. apply String.eqb_eq in H. subst. eauto.
Qed.
Lemma counted_eval k e fs te dl m obj s d r n : counted k e fs = true -> wff m fs = true -> sndf_ok te dl fs = true -> distinct (names fs) = true -> fresh fs obj ->
  ~ In k (names fs) -> dget k obj = Some (VInt n) -> parse_fields fs obj s = Ok (d, r) -> forall eb, ext d eb ->
  (forall j, hidden j = true -> flookup j fs = None) -> eval_is e eb n.
Proof.
  intros C W S D Fr Nk G H eb X Hh. destruct e as [| |j|j]; try discriminate; cbn [counted eval_is] in *.
  - destruct (flookup j fs) as [c|] eqn:F; [|discriminate]. destruct c; try discriminate. destruct e; try discriminate. apply String.eqb_eq in C. subst k0.
    destruct (flookup_parse _ _ _ _ _ _ _ _ _ _ F W S D Fr H) as (ctx & s1 & v & r1 & P & Gj & _ & K).
    rewrite <- (K k Nk) in G. destruct (array_count _ _ _ _ _ _ _ P G) as (l & -> & ->). exists (VList l), l. split; [|auto].
    apply X; [|exact Gj]. destruct (hidden j) eqn:E; [|reflexivity]. rewrite (Hh j E) in F. discriminate.
  - destruct (flookup j fs) as [c|] eqn:F; [|discriminate]. destruct c; try discriminate. destruct c; try discriminate. apply andb_prop in C as [C1 C2].
    destruct (flookup k0 fs) as [cf|] eqn:Ff; [|discriminate]. destruct (kind_of cf) as [[|t|t]|] eqn:Kf; try discriminate.
    destruct (flookup_parse _ _ _ _ _ _ _ _ _ _ F W S D Fr H) as (ctx & s1 & v & r1 & P & Gj & E1 & K).
    destruct (flookup_parse _ _ _ _ _ _ _ _ _ _ Ff W S D Fr H) as (ctx2 & s2 & v2 & r2 & P2 & Gf & _ & _).
    assert (Hf : hidden k0 = false) by (destruct (hidden k0) eqn:E; [rewrite (Hh k0 E) in Ff; discriminate|reflexivity]).
    rewrite <- (K k Nk) in G. cbn [parse] in P. destruct (bits2bytes s1) as [bs lo]. apply bind_ok in P as ([w r3] & P & E). injection E as <- _.
    cbn [parse] in P. apply bind_ok in P as (kv & Gk & P). unfold dgetr in Gk. destruct (dget k0 ctx) as [kv'|] eqn:Gk'; [|discriminate]. injection Gk as ->.
    pose proof (E1 _ _ Hf Gk') as Gd. rewrite Gf in Gd. injection Gd as ->. destruct (kind_parse _ _ _ _ _ _ Kf P2) as (nm & z & -> & B).
    apply bind_ok in P as ([x r4] & P & E). injection E as <- _. destruct (enum_cases_find _ _ _ _ C2 B) as (c & Fc).
    destruct (case_count _ _ _ _ _ _ _ _ _ _ C1 Fc P G) as (l & -> & ->). exists (lower nm), (VList l), l, []. split; [|auto].
    apply X; [|exact Gj]. destruct (hidden j) eqn:E; [|reflexivity]. rewrite (Hh j E) in F. discriminate.
Qed.
Lemma flookup_vis fs m : wff m fs = true -> forall j, hidden j = true -> flookup j fs = None.
Proof.
  induction fs; intros W j Hj; cbn [flookup wff] in *; try reflexivity; andb W.
  - destruct (String.eqb_spec j k); [subst; apply vis_hidden in W; congruence|auto].
  - destruct (String.eqb_spec j k); [reflexivity|auto].
Qed.

(** ** The main lemma *)
Hypothesis HA : forall a c1 m dl k ctx s w r v eb ep, adok k dl a c1 = true -> wf m c1 = true -> units m s ->
  parse c1 ctx s = Ok (w, r) -> decode a w = Ok v -> lossless u v -> match k with Some k => survives u k v | None => True end ->
  exists w1 w1' v', A_spec a v w1 w1' v' /\ conf A_spec c1 dl eb ep w1 w1' /\ eqv (pub v) v'.

Definition variant (c : con) (v v2 : val) : Prop :=
  v2 = v \/ chain c = true /\ exists d d2, v = VDict d /\ v2 = VDict d2 /\ ext d d2.
Definition atk (k : option string) (v : val) : Prop := match k with Some k => survives u k v | None => True end.
Definition vloss (d : dict) : Prop := forall k x, hidden k = false -> dget k d = Some x -> lossless u x /\ survives u k x.
Lemma vloss_ext d o : lossless u (VDict o) -> ext d o -> vloss d.
Proof. intros L X k x Hk Hx. apply (lossless_dict u o k x L), dget_In. now apply X. Qed.
Definition Ps (c : con) : Prop := forall m te dl k ctx s v r eb ep, wf m c = true -> snd_ok te dl k c = true -> units m s ->
  parse c ctx s = Ok (v, r) -> typed te ctx ep -> ext ctx eb -> forall v2, variant c v v2 -> lossless u v2 -> atk k v ->
  exists v', conf A_spec c dl eb ep v2 v' /\ eqv (pub v) v'.
Definition Fs (fs : fields) : Prop := forall m te dl obj s d r eb ep o, wff m fs = true -> sndf_ok te dl fs = true -> units m s ->
  parse_fields fs obj s = Ok (d, r) -> distinct (names fs) = true -> fresh fs obj -> typed te obj ep -> rel obj ep ->
  ext d eb -> ext d o -> vloss d -> exists d', conf_fields A_spec fs dl eb ep o d' /\ rel d d'.
Definition Ks (cs : cases) : Prop := forall m te dl z ctx s v r eb ep, wfk m cs = true -> sndk_ok te dl cs = true -> units m s ->
  parse_case z cs ctx s = Ok (v, r) -> typed te ctx ep -> ext ctx eb -> lossless u v ->
  exists v', conf_case A_spec z cs dl eb ep v v' /\ eqv (pub v) v'.
Definition As (l : alts) : Prop := forall m te dl prev ctx s v r eb ep, wfa m l = true -> snda_ok te dl prev l = true -> units m s ->
  (forall cj, In cj prev -> exists e, parse cj ctx s = Err e) ->
  parse_alts l ctx s = Ok (v, r) -> typed te ctx ep -> ext ctx eb -> lossless u v ->
  exists v', conf_alts A_spec l prev dl eb ep v v' /\ eqv (pub v) v'.

Lemma variant_id c v v2 : chain c = false -> variant c v v2 -> v2 = v.
Proof. intros H [E|[E _]]; [exact E|congruence]. Qed.
Lemma typed_add te k kd v obj ep : hidden k = false -> typed te obj ep -> dget k obj = None -> has_kind kd v -> typed ((k, kd) :: te) (dset k v obj) (dset k v ep).
Proof.
  intros Hh T Hk K j kd' E. cbn [tget] in E. destruct (String.eqb_spec j k) as [-> |Hn].
  - injection E as <-. split; [exact Hh|]. exists v. rewrite !dget_dset_eq. auto.
  - destruct (T _ _ E) as (Hv & x & H1 & H2 & H3). split; [exact Hv|]. exists x. rewrite !dget_dset_neq by exact Hn. auto.
Qed.
Lemma typed_skip te k x x' obj ep : typed te obj ep -> dget k obj = None -> typed te (dset k x obj) (dset k x' ep).
Proof.
  intros T Hk j kd E. destruct (T _ _ E) as (Hv & y & H1 & H2 & H3). split; [exact Hv|]. exists y.
  assert (j <> k) by (intros ->; congruence). rewrite !dget_dset_neq by assumption. auto.
Qed.
Lemma typed_nil ctx ep : typed [] ctx ep. Proof. intros k kd H. discriminate. Qed.
Lemma fits_int n sg a : (0 < n)%nat -> bytes a -> length a = n -> fits (8 * Z.of_nat n) sg (int_of n sg a).
Proof.
  intros Hn Ha L. pose proof (of_le_bound a Ha) as B. rewrite L, pow256_2 in B. unfold fits, int_of. destruct sg; [|exact B].
  apply to_signed_bound; lia.
Qed.
Lemma fits_bits n sg a : (0 < n)%nat -> bits a -> length a = n -> fits (Z.of_nat n) sg (if sg then to_signed (Z.of_nat n) (of_bits a) else of_bits a).
Proof.
  intros Hn Ha L. pose proof (of_bits_bound a Ha) as B. rewrite L in B. unfold fits. destruct sg; [|exact B].
  apply to_signed_bound; lia.
Qed.
Lemma legal_parse s z r : units false s -> opcode_parse s = Ok (z, r) -> legal_opcode z.
Proof.
  unfold opcode_parse, legal_opcode. intros U H. destruct s as [|b0 s]; [discriminate|]. destruct (Z.eqb_spec b0 127); [discriminate|].
  inversion_clear U as [|? ? B0 U1]. unfold unit_ok, isbyte in B0. destruct (Z.ltb_spec b0 128); [injection H as <- _; lia|].
  destruct s as [|b1 s]; [discriminate|]. inversion_clear U1 as [|? ? B1 U2]. unfold unit_ok, isbyte in B1. destruct (Z.ltb_spec b0 192); [injection H as <- _; lia|].
  destruct s as [|b2 s]; [discriminate|]. inversion_clear U2 as [|? ? B2 U3]. unfold unit_ok, isbyte in B2. injection H as <- _. lia.
Qed.
Lemma strip_last a : last (strip_nul a) 1 <> 0.
Proof.
  induction a as [|b a IH]; cbn [strip_nul]; [cbn; lia|]. destruct (strip_nul a) as [|x t] eqn:E.
  - destruct (Z.eqb_spec b 0); cbn; lia.
  - cbn [last] in *. exact IH.
Qed.
Lemma strip_sub a : bytes a -> bytes (strip_nul a) /\ (length (strip_nul a) <= length a)%nat.
Proof.
  induction 1 as [|b a Hb H (IH1 & IH2)]; cbn [strip_nul]; [split; [constructor|cbn; lia]|].
  destruct (strip_nul a) as [|x t].
  - destruct (b =? 0); cbn; split; try lia; repeat constructor; apply Hb.
  - cbn [length] in *. split; [constructor; assumption|lia].
Qed.
Lemma utf8_back l t : bytes l -> utf8_decode l = Some t -> utf8_encode t = Some l.
Proof. intros B H. exact (utf8_encode_decode (length l) l t (le_n _) B H). Qed.
Lemma names_vis fs : forall m, wff m fs = true -> forall k, In k (names fs) -> hidden k = false.
Proof.
  induction fs as [|k c fs IH|k c dv fs IH|k e c fs IH|k n fs IH|k fs IH|n b IHb fs IH]; intros m W j Hj; cbn [names wff] in *; andb W.
  1: destruct Hj.
  1-3: destruct Hj as [<- |Hj]; [now apply vis_hidden|eauto].
  1-2: eauto.
  apply in_app_or in Hj as [Hj|Hj]; eauto.
Qed.
Lemma distinct_app a b : distinct (a ++ b) = true -> distinct a = true /\ distinct b = true /\ forall k, In k a -> In k b -> False.
Proof.
  induction a as [|x a IH]; cbn [app distinct]; intros H; [auto|]. andb H. destruct (IH H0) as (H1 & H2 & H3). apply negb_true_iff in H. apply existsb_string in H. split; [|split; [exact H2|]].
  - rewrite H1, andb_true_r. apply negb_true_iff. destruct (existsb (String.eqb x) a) eqn:E; [|reflexivity]. exfalso. apply existsb_exists in E as (y & Hy & Ey). apply String.eqb_eq in Ey. subst. apply H, in_or_app. now left.
  - intros k [<- |Hk] Hb; [|eauto]. apply H, in_or_app. now right.
Qed.
Lemma dget_dmerge_none b : forall a k, dget k b = None -> dget k (dmerge a b) = dget k a.
Proof.
  induction b as [|[j y] b IH]; intros a k H; [reflexivity|]. cbn [dmerge dget] in *. destruct (String.eqb_spec k j); [discriminate|].
  rewrite IH by exact H. now apply dget_dset_neq.
Qed.
Lemma eqvd_dget a : forall b k, eqvd a b -> dget k a = None -> dget k b = None.
Proof.
  induction a as [|[j y] a IH]; intros b k H G; inversion H as [|p [j' y'] ? ? [H1 _] H3]; subst; [reflexivity|]. cbn in *. subst j'.
  destruct (String.eqb k j); [discriminate|]. eauto.
Qed.
Lemma list_case c m te dl ctx eb ep l : Ps c -> wf m c = true -> snd_ok te true None c = true -> snd_ok te dl None c = true -> typed te ctx ep -> ext ctx eb ->
  Forall (fun x => exists s r, units m s /\ parse c ctx s = Ok (x, r)) l -> lossless u (VList l) ->
  exists l', conf_list (fun dl x x' => conf A_spec c dl eb ep x x') dl l l' /\ Forall2 eqv (map pub l) l'.
Proof.
  intros IH W S1 S2 T X F L. apply list_conf. intros x Hx. rewrite Forall_forall in F. destruct (F _ Hx) as (s & r & U & P).
  pose proof (lossless_list _ _ _ L Hx) as Lx.
  split; [eapply (IH m te true None ctx s x r)|eapply (IH m te dl None ctx s x r)]; eauto; try exact I; now left.
Qed.

(** *** The same fields, wider *)
Lemma wider_inv f g : wider f g = true -> (f = FNil /\ g = FNil) \/
  exists k n m f' g', f = FCons k (CInt n false) f' /\ g = FCons k (CInt m false) g' /\ (m <= n)%nat /\ wider f' g' = true.
Proof.
  destruct f as [|k c f|k c dv f|k e c f|k n f|k f|n b f]; cbn [wider]; try discriminate.
  - destruct g; try discriminate. now left.
  - destruct c; try discriminate. destruct sg; try discriminate. destruct g as [|j c g|j c dv g|j e c g|j n' g|j g|n' b g]; try discriminate.
    destruct c; try discriminate. destruct sg; try discriminate. intros H. andb H. apply String.eqb_eq in H. subst. apply Nat.leb_le in H1. right. eauto 10.
Qed.
Lemma wider_refl f : forall g, wider f g = true -> wider f f = true /\ names f = names g.
Proof.
  induction f as [|k c f IH|k c dv f IH|k e c f IH|k n f IH|k f IH|n b IHb f IH]; intros g H; apply wider_inv in H as [[E ->]|(k0 & n0 & m0 & f' & g' & E & -> & Hle & H)]; try discriminate; [now split|].
  injection E as -> -> ->. destruct (IH _ H) as [R E]. cbn [wider names]. rewrite String.eqb_refl, Nat.leb_refl, R, E. auto.
Qed.
Lemma wider_ok f : forall g te dl, wider f g = true -> sndf_ok te dl g = true.
Proof.
  induction f as [|k c f IH|k c dv f IH|k e c f IH|k n f IH|k f IH|n b IHb f IH]; intros g te dl H; apply wider_inv in H as [[E ->]|(k0 & n0 & m0 & f' & g' & E & -> & Hle & H)]; try discriminate; [reflexivity|].
  injection E as -> -> ->. cbn. exact (IH _ _ _ H).
Qed.
Lemma wide_fields f : forall g obj s d r eb ep o dl, wider f g = true -> wff false g = true -> units false s -> parse_fields g obj s = Ok (d, r) ->
  distinct (names g) = true -> fresh g obj -> pubd obj = ep -> ext d o -> conf_fields A_spec f dl eb ep o (pubd d).
Proof.
  induction f as [|k c f IH|k c dv f IH|k e c f IH|k n f IH|k f IH|n b IHb f IH]; intros g obj s d r eb ep o dl H W U P D Fr E X; apply wider_inv in H as [[Ef ->]|(k0 & n1 & n0 & f' & g' & Ef & -> & H1 & H0)]; try discriminate.
  - cbn [parse_fields] in P. injection P as <- _. cbn [conf_fields]. now symmetry.
  - injection Ef as -> -> ->. rename k0 into k. rename n1 into n. rename g' into g. cbn [parse_fields wff names distinct] in *. andb W. andb D. unfold fresh in Fr. cbn [names] in Fr.
    apply bind_ok in P as ([v r0] & Pc & P). cbn [parse] in Pc. apply bind_ok in Pc as ([a r1] & Pa & Ec). injection Ec as <- <-.
    destruct (units_take _ _ _ _ _ Pa U) as [Ua Ur]. apply take_ok in Pa as [_ La]. apply vis_hidden in W. apply negb_true_iff in D.
    cbn [wf] in W1. andb W1. apply Nat.ltb_lt in W2. set (z := int_of n0 false a) in *.
    assert (Fz : fits (8 * Z.of_nat n0) false z) by (now apply fits_int).
    assert (Gk : dget k d = Some (VInt z)).
    { rewrite (kept g [] dl false _ _ _ _ k W0 (wider_ok _ _ _ _ H0) P W); [apply dget_dset_eq|now apply existsb_string]. }
    exists (VInt z), (VInt z). split; [now apply X|]. split.
    + cbn [conf]. exists z. split; [reflexivity|]. split; [|reflexivity]. unfold fits in *. split; [tauto|]. eapply Z.lt_le_trans; [apply Fz|]. apply Z.pow_le_mono_r; lia.
    + eapply (IH g (dset k (VInt z) obj)); eauto; [now apply fresh_next|]. rewrite pubd_dset by exact W. now rewrite E.
Qed.
Lemma wide_sound l m dl ctx s v r eb ep : wide_select l = true -> wfa m l = true -> units m s -> parse_alts l ctx s = Ok (v, r) ->
  exists v', conf_alts A_spec l [] dl eb ep v v' /\ eqv (pub v) v'.
Proof.
  unfold wide_select. intros H W U P. destruct l as [|c l]; [discriminate|]. destruct c; try discriminate. destruct c; try discriminate. destruct l as [|c l]; [discriminate|].
  destruct c; try discriminate. destruct c; try discriminate. destruct l; [|discriminate]. andb H. cbn [wfa] in W. andb W.
  rename H into Hf. rename H3 into H. destruct (wider_refl _ _ H) as [Hr En]. apply smem_not in H0. apply vis_hidden in H2.
  cbn [wf] in W, W1. 
  assert (Hm : m = false).
  { destruct fs; try discriminate; cbn [wider] in H. destruct c; try discriminate. cbn [wff wf] in W. andb W. now destruct m. }
  subst m.
  assert (K : forall g nm, wider fs g = true -> wff false g = true -> parse (CNamed nm (CStruct g)) ctx s = Ok (v, r) ->
     exists v', conf_alts A_spec (ACons (CNamed name (CStruct fs)) (ACons (CNamed name0 (CStruct fs0)) ANil)) [] dl eb ep v v' /\ eqv (pub v) v').
  { intros g nm Hw Wg Pg. cbn [parse] in Pg. apply bind_ok in Pg as ([w r0] & Pg & E). apply bind_ok in Pg as ([d r1] & Pg & E'). injection E' as <- <-. injection E as <- _.
    destruct (wider_refl _ _ Hw) as [_ En']. exists (VDict (pubd d)). split.
    - cbn [conf_alts]. left. split; [|constructor]. cbn [conf]. do 2 eexists. split; [reflexivity|]. split; [reflexivity|].
      assert (Gn : dget name (dset "_name" (VStr (cps nm)) d) = None).
      { rewrite dget_dset_neq by (intros ->; discriminate). rewrite (kept g [] dl false _ _ _ _ name Wg (wider_ok _ _ _ _ Hw) Pg H2); [reflexivity|now rewrite <- En']. }
      rewrite Gn. do 2 eexists. split; [reflexivity|]. split; [reflexivity|].
      refine (wide_fields fs g [] s d _ _ [] _ dl Hw Wg U Pg _ _ eq_refl _); [now rewrite <- En'|intros j _; reflexivity|]. apply ext_dset_hidden; [apply ext_refl|reflexivity].
    - rewrite pub_dict, pubd_dset_hidden by reflexivity. apply eqv_refl. }
  cbn [parse_alts] in P. destruct (parse (CNamed name (CStruct fs)) ctx s) as [[w r0]|e|] eqn:E1; [| |discriminate].
  - injection P as -> ->. exact (K fs name Hr W E1).
  - destruct (parse (CNamed name0 (CStruct fs0)) ctx s) as [[w r0]|e2|] eqn:E2; [|discriminate|discriminate]. injection P as -> ->. refine (K fs0 name0 H _ E2). cbn [wf] in W0. andb W0. exact W0.
Qed.
(** *** Property headers *)
Lemma case_names_eq t cs n z n' c : case_names t cs = true -> by_value t z = Some (VEnum n z) -> find_case z cs = Some (n', c) -> n' = n.
Proof.
  unfold case_names. rewrite forallb_forall. intros H B F. destruct (by_value_enum _ _ _ B) as (n0 & E & Hin). injection E as <-.
  specialize (H _ Hin). cbn [snd] in H. rewrite B, F in H. apply String.eqb_eq in H. congruence.
Qed.
Lemma allcons_kept fs : forall dl eb ep o d' k, allcons fs = true -> conf_fields A_spec fs dl eb ep o d' -> ~ In k (names fs) -> dget k d' = dget k ep.
Proof.
  induction fs as [|k c fs IH|k c dv fs IH|k e c fs IH|k n fs IH|k fs IH|n b IHb fs IH]; intros dl eb ep o d' j A C Hn; try discriminate; cbn [conf_fields allcons names] in *; [now subst|].
  destruct C as (x & x' & _ & _ & C). rewrite (IH _ _ _ _ _ j A C) by (intros K; apply Hn; now right). apply dget_dset_neq. intros ->. apply Hn. now left.
Qed.
Lemma allcons_kind fs : forall dl eb ep o d' j c kd v, allcons fs = true -> distinct (names fs) = true -> conf_fields A_spec fs dl eb ep o d' ->
  flookup j fs = Some c -> kind_of c = Some kd -> dget j o = Some v -> has_kind kd v -> dget j d' = Some v.
Proof.
  induction fs as [|k c fs IH|k c dv fs IH|k e c fs IH|k n fs IH|k fs IH|n b IHb fs IH]; intros dl eb ep o d' j c0 kd v A D C F K G H; try discriminate; cbn [conf_fields allcons names distinct flookup] in *.
  andb D. destruct C as (x & x' & Gx & C1 & C2). destruct (String.eqb_spec j k) as [-> |Hn]; [|eauto].
  injection F as ->. rewrite (allcons_kept _ _ _ _ _ _ k A C2); [|now apply smem_not]. rewrite dget_dset_eq. f_equal. rewrite G in Gx. injection Gx as <-.
  eapply kind_conf; eauto.
Qed.
Lemma flookup_in j fs c : flookup j fs = Some c -> In j (names fs).
Proof.
  induction fs; cbn [flookup names]; intros H; try discriminate.
  - destruct (String.eqb_spec j k); [left; congruence|right; auto].
  - destruct (String.eqb_spec j k); [discriminate|right; auto].
Qed.
Lemma dget_ddel_neq k j d : k <> j -> dget k (ddel j d) = dget k d.
Proof.
  intros H. induction d as [|[i y] d IH]; [reflexivity|]. cbn [ddel dget]. destruct (String.eqb_spec j i) as [-> |Hi]; cbn [dget].
  - destruct (String.eqb_spec k i); [contradiction|]. first [exact IH|reflexivity].
  - destruct (String.eqb k i); [reflexivity|exact IH].
Qed.
Lemma eqvd_ddel k d : forall d', eqvd d d' -> eqvd (ddel k d) (ddel k d').
Proof.
  induction d as [|[j y] d IH]; intros d' H; inversion H as [|p [j' y'] ? ? [H1 H2] H3]; subst; [constructor|]. cbn in *. subst j'.
  destruct (String.eqb k j); [exact H3|constructor; [split; [reflexivity|exact H2]|now apply IH]].
Qed.
Definition is_id (t : enum) (idv : val) : Prop := exists z, as_int idv = Some z /\ match by_value t z with Some m => idv = m | None => idv = VInt z end.
Lemma header_sound k0 t hdr m te ctx s h r eb ep idv : Ps hdr -> idfield k0 t hdr = true -> wf m hdr = true -> snd_ok te true None hdr = true -> units m s ->
  parse hdr ctx s = Ok (VDict h, r) -> typed te ctx ep -> ext ctx eb -> dget k0 h = Some idv ->
  is_id t idv /\ hidden k0 = false
  /\ (forall nm x, nm = raw_name \/ (exists n z, by_value t z = Some (VEnum n z) /\ nm = lower n) -> hidden nm = false ->
        nm <> k0 /\ let d2 := dset nm x (dset k0 idv (ddel k0 h)) in
        lossless u (VDict d2) -> exists h', conf A_spec hdr true eb ep (VDict d2) (VDict h') /\ dget k0 h' = Some idv
          /\ forall x', eqv (pub x) x' -> eqv (pub (VDict d2)) (VDict (dset nm x' (dset k0 idv (ddel k0 h'))))).
Proof.
  intros IH Hi W S U P T X G. unfold idfield in Hi. destruct hdr as [| | | | | | | | | | | | | |fs| | | | | | | | | | | | | | ]; try discriminate.
  andb Hi. destruct (flookup k0 fs) as [c|] eqn:F; [|discriminate]. pose proof S as S'. pose proof P as P'. cbn in S. andb S. cbn [parse wf] in P, W.
  apply bind_ok in P as ([d r0] & P & E). injection E as -> ->. pose proof (flookup_in _ _ _ F) as Hin.
  pose proof (names_vis _ _ W _ Hin) as Hv.
  destruct (flookup_parse k0 fs [] true m [] s h r c F W S0 S ltac:(intros j _; reflexivity) P) as (ctx1 & s1 & v1 & r1 & P1 & G1 & _). rewrite G in G1. injection G1 as <-.
  destruct (kind_of c) as [kd|] eqn:K; [|discriminate]. pose proof (kind_parse _ _ _ _ _ _ K P1) as Hk.
  assert (I : is_id t idv).
  { destruct kd as [|t'|t']; [discriminate| |]; apply enum_eqb_eq in Hi0; subst t'.
    - destruct Hk as (n & z & -> & B). exists z. split; [reflexivity|]. now rewrite B.
    - exact Hk. }
  split; [exact I|]. split; [exact Hv|]. intros nm x Hnm Hh.
  assert (Nn : ~ In nm (names fs)).
  { destruct Hnm as [-> |(n & z & B & ->)]; [now apply smem_not|]. destruct (by_value_enum _ _ _ B) as (n' & E & Hin'). injection E as <-.
    rewrite forallb_forall in Hi1. specialize (Hi1 _ Hin'). now apply smem_not in Hi1. }
  assert (Gn : dget nm h = None) by (rewrite (kept _ _ _ _ _ _ _ _ nm W S0 P Hh Nn); reflexivity).
  assert (Hne : nm <> k0) by (intros ->; contradiction). split; [exact Hne|]. intros d2 L.
  assert (X2 : ext h d2).
  { intros j y Hj Gy. unfold d2. rewrite dget_dset_neq by congruence. destruct (string_dec j k0) as [-> |Hn].
    - rewrite dget_dset_eq. congruence.
    - rewrite dget_dset_neq, dget_ddel_neq by exact Hn. exact Gy. }
  destruct (IH m te true None ctx s (VDict h) r eb ep W S' U P' T X (VDict d2)) as (v' & C & E); auto; [|exact Logic.I|].
  { right. split; [reflexivity|]. eauto 6. }
  cbn [conf] in C. destruct C as (dd & h' & Ed & -> & C). injection Ed as <-. exists h'. split; [cbn [conf]; eauto|]. split.
  - eapply allcons_kind; eauto.
  - intros x' Ex. rewrite pub_dict in *. apply eqv_dict. unfold d2. rewrite !pubd_dset, pubd_ddel by assumption. rewrite (kind_pub _ _ Hk).
    apply eqvd_dset; [|exact Ex]. apply eqvd_dset; [|apply eqv_refl]. apply eqvd_ddel.
    inversion E; [apply eqvd_refl|assumption].
Qed.

Theorem sound_mut : (forall c, Ps c) /\ (forall fs, Fs fs) /\ (forall cs, Ks cs) /\ (forall l, As l).
Proof.
  apply con_mutind.
  - (* CInt *) intros n sg m te dl k ctx s v r eb ep W S U P T X v2 V L K. apply variant_id in V; [|reflexivity]. subst v2.
    cbn [parse wf] in *. apply bind_ok in P as ([a r0] & P & E). injection E as <- _. andb W. destruct m; [discriminate|]. apply Nat.ltb_lt in W0.
    destruct (units_take _ _ _ _ _ P U) as [Ua _]. apply take_ok in P as [_ P]. eexists. split; [|apply eqv_refl]. cbn [conf].
    eexists. split; [reflexivity|]. split; [now apply fits_int|reflexivity].
  - (* CBytesInt *) intros n sw m te dl k ctx s v r eb ep W S U P T X v2 V L K. apply variant_id in V; [|reflexivity]. subst v2.
    cbn [parse wf] in *. apply bind_ok in P as ([a r0] & P & E). injection E as <- _. destruct m; [discriminate|].
    destruct (units_take _ _ _ _ _ P U) as [Ua _]. apply take_ok in P as [_ P]. eexists. split; [|apply eqv_refl]. cbn [conf].
    eexists. split; [reflexivity|]. split; [|reflexivity]. unfold fits. rewrite <- pow256_2.
    destruct sw; [rewrite <- P; now apply of_le_bound|]. rewrite <- P, <- rev_length. apply of_le_bound. apply Forall_rev, Ua.
  - (* CBits *) intros n sg m te dl k ctx s v r eb ep W S U P T X v2 V L K. apply variant_id in V; [|reflexivity]. subst v2.
    cbn [parse wf] in *. apply bind_ok in P as ([a r0] & P & E). injection E as <- _. andb W. destruct m; [|discriminate]. apply Nat.ltb_lt in W0.
    destruct (units_take _ _ _ _ _ P U) as [Ua _]. apply take_ok in P as [_ P]. eexists. split; [|apply eqv_refl]. cbn [conf].
    eexists. split; [reflexivity|]. split; [now apply fits_bits|reflexivity].
  - (* CFlag *) intros m te dl k ctx s v r eb ep W S U P T X v2 V L K. apply variant_id in V; [|reflexivity]. subst v2.
    cbn [parse] in P. destruct s; [discriminate|]. injection P as <- _. eexists. split; [|apply eqv_refl]. reflexivity.
  - (* CIeee *) intros n m te dl k ctx s v r eb ep W S U P T X v2 V L K. apply variant_id in V; [|reflexivity]. subst v2.
    cbn [parse wf] in *. apply bind_ok in P as ([a r0] & P & E). injection E as <- _. destruct m; [discriminate|].
    destruct (units_take _ _ _ _ _ P U) as [Ua _]. apply take_ok in P as [_ P]. eexists. split; [|apply eqv_refl]. cbn [conf].
    eexists. split; [reflexivity|]. split; [|reflexivity]. unfold fits. rewrite <- pow256_2, <- P. now apply of_le_bound.
  - (* CBytes *) intros n m te dl k ctx s v r eb ep W S U P T X v2 V L K. apply variant_id in V; [|reflexivity]. subst v2.
    cbn [parse wf] in *. apply bind_ok in P as ([a r0] & P & E). injection E as <- _. destruct m; [discriminate|].
    destruct (units_take _ _ _ _ _ P U) as [Ua _]. apply take_ok in P as [_ P]. eexists. split; [|apply eqv_refl]. cbn [conf].
    eexists. split; [reflexivity|]. auto.
  - (* CGreedyBytes *) intros m te dl k ctx s v r eb ep W S U P T X v2 V L K. apply variant_id in V; [|reflexivity]. subst v2.
    cbn [parse wf] in *. injection P as <- _. destruct m; [discriminate|]. cbn in S. apply negb_true_iff in S. eexists. split; [|apply eqv_refl]. cbn [conf]. eauto.
  - (* CGreedyString *) intros m te dl k ctx s v r eb ep W S U P T X v2 V L K. apply variant_id in V; [|reflexivity]. subst v2.
    cbn [parse wf] in *. destruct (utf8_decode s) as [t|] eqn:D; [|discriminate]. injection P as <- _. destruct m; [discriminate|]. cbn in S. apply negb_true_iff in S. eexists. split; [|apply eqv_refl]. cbn [conf].
    split; [exact S|]. exists t, s. split; [reflexivity|]. split; [|reflexivity]. now apply utf8_back.
  - (* CPaddedString *) intros e m te dl k ctx s v r eb ep W S U P T X v2 V L K. apply variant_id in V; [|reflexivity]. subst v2.
    cbn [parse wf] in *. andb W. destruct m; [discriminate|]. apply bind_ok in P as (n & En & P). destruct (Z.ltb_spec n 0); [discriminate|].
    apply bind_ok in P as ([a r0] & P & E). destruct (utf8_decode (strip_nul a)) as [t|] eqn:D; [|discriminate]. injection E as <- _.
    destruct (units_take _ _ _ _ _ P U) as [Ua _]. apply take_ok in P as [_ P]. destruct (strip_sub a Ua) as [B1 B2].
    destruct (expr_conf te e ctx eb ep n S W0 T X En) as [E1 E2]. eexists. split; [|apply eqv_refl]. cbn [conf].
    exists n, t, (strip_nul a). repeat split; auto; [now apply utf8_back|lia|apply strip_last].
  - (* CPascalString *) intros m te dl k ctx s v r eb ep W S U P T X v2 V L K. apply variant_id in V; [|reflexivity]. subst v2.
    cbn [parse wf] in *. destruct m; [discriminate|]. destruct s as [|b s]; [discriminate|]. inversion_clear U as [|? ? Ub Us]. unfold unit_ok, isbyte in Ub.
    apply bind_ok in P as ([a r0] & P & E). destruct (utf8_decode a) as [t|] eqn:D; [|discriminate]. injection E as <- _.
    destruct (units_take _ _ _ _ _ P Us) as [Ua _]. apply take_ok in P as [_ P]. eexists. split; [|apply eqv_refl]. cbn [conf].
    exists t, a. repeat split; auto; [now apply utf8_back|lia].
  - (* CPrefixedBytes *) intros m te dl k ctx s v r eb ep W S U P T X v2 V L K. apply variant_id in V; [|reflexivity]. subst v2.
    cbn [parse wf] in *. destruct m; [discriminate|]. destruct s as [|b s]; [discriminate|]. inversion_clear U as [|? ? Ub Us]. unfold unit_ok, isbyte in Ub.
    apply bind_ok in P as ([a r0] & P & E). injection E as <- _.
    destruct (units_take _ _ _ _ _ P Us) as [Ua _]. apply take_ok in P as [_ P]. eexists. split; [|apply eqv_refl]. cbn [conf].
    exists a. repeat split; auto. lia.
  - (* CPrefixedArray *) intros c IH m te dl k ctx s v r eb ep W S U P T X v2 V L K. apply variant_id in V; [|reflexivity]. subst v2.
    cbn [parse wf] in *. cbn in S. andb W. andb S. destruct m; [discriminate|]. destruct s as [|b s]; [discriminate|]. inversion_clear U as [|? ? Ub Us]. unfold unit_ok, isbyte in Ub.
    apply bind_ok in P as ([l r0] & P & E). injection E as <- _.
    destruct (times_elems false _ _ _ _ _ (fun s0 v0 r0 U0 P0 => parse_units c false ctx s0 v0 r0 W0 U0 P0) Us P) as [Ln F].
    destruct (list_case c false te dl ctx eb ep l IH W0 S S0 T X F L) as (l' & C & E). exists (VList l'). split; [|cbn [pub]; now apply eqv_list].
    cbn [conf]. exists l, l'. repeat split; auto. lia.
  - (* CArray *) intros e c IH m te dl k ctx s v r eb ep W S U P T X v2 V L K. apply variant_id in V; [|reflexivity]. subst v2.
    cbn [parse wf] in *. cbn in S. andb W. andb S. apply bind_ok in P as (n & En & P). destruct (Z.ltb_spec n 0); [discriminate|].
    apply bind_ok in P as ([l r0] & P & E). injection E as <- _.
    destruct (times_elems m _ _ _ _ _ (fun s0 v0 r0 U0 P0 => parse_units c m ctx s0 v0 r0 W0 U0 P0) U P) as [Ln F].
    destruct (list_case c m te dl ctx eb ep l IH W0 S1 S0 T X F L) as (l' & C & E). exists (VList l'). split; [|cbn [pub]; now apply eqv_list].
    destruct (expr_conf te e ctx eb ep n S W T X En) as [E1 E2]. replace n with (Z.of_nat (length l)) in E1, E2 by lia.
    cbn [conf]. exists l, l'. repeat split; auto.
  - (* CGreedyRange *) intros c IH m te dl k ctx s v r eb ep W S U P T X v2 V L K. apply variant_id in V; [|reflexivity]. subst v2.
    cbn [parse wf] in *. cbn in S. andb W. andb S. apply negb_true_iff in S. subst dl.
    apply bind_ok in P as ([l r0] & P & E). injection E as <- _.
    pose proof (greedy_elems m _ _ _ _ _ (fun s0 v0 r0 U0 P0 => parse_units c m ctx s0 v0 r0 W U0 P0) U P) as F.
    destruct (list_case c m te false ctx eb ep l IH W S1 S0 T X F L) as (l' & C & E). exists (VList l'). split; [|cbn [pub]; now apply eqv_list].
    cbn [conf]. split; [reflexivity|]. exists l, l'. repeat split; auto.
  - (* CStruct *) intros fs IH m te dl k ctx s v r eb ep W S U P T X v2 V L K.
    cbn [parse wf] in *. cbn in S. andb S. apply bind_ok in P as ([d r0] & P & E). injection E as <- _.
    assert (exists d2, v2 = VDict d2 /\ ext d d2) as (d2 & -> & X2).
    { destruct V as [-> | (_ & d0 & d2 & E & -> & X2)]; [exists d; split; [reflexivity|apply ext_refl]|]. injection E as <-. eauto. }
    destruct (IH m [] dl [] s d r0 d2 [] d2 W S0 U P S) as (d' & C & R); auto using typed_nil; [intros j _; reflexivity|apply eqvd_refl|eapply vloss_ext; eauto|].
    exists (VDict d'). split; [|now apply eqv_vdict]. cbn [conf]. eauto.
  - (* CBitwise *) intros c IH m te dl k ctx s v r eb ep W S U P T X v2 V L K.
    cbn [parse wf] in *. cbn in S. andb W. apply bind_ok in P as ([w r0] & P & E). destruct (bits2bytes r0) as [bs [|]]; [|discriminate]. injection E as <- _.
    eapply (IH true te dl None ctx _ w r0 eb ep); eauto using bytes2bits_bits; try exact I. apply bytes2bits_bits.
  - (* CBytewise *) intros c IH m te dl k ctx s v r eb ep W S U P T X v2 V L K. apply variant_id in V; [|reflexivity]. subst v2.
    cbn [parse wf] in *. cbn in S. andb W. destruct m; [|discriminate]. destruct (bits2bytes s) as [bs lo] eqn:B. apply bind_ok in P as ([w r0] & P & E). injection E as <- _.
    eapply (IH false te dl None ctx _ w r0 eb ep); eauto; try exact I; [|now left]. now apply (bits_bytes s bs lo).
  - (* CReversed *) intros n c IH m te dl k ctx s v r eb ep W S U P T X v2 V L K.
    cbn [parse wf] in *. cbn in S. andb W. apply bind_ok in P as ([a r0] & P & E). apply bind_ok in E as ([w r1] & P1 & E). destruct r1; [|discriminate]. injection E as <- _.
    destruct (units_take _ _ _ _ _ P U) as [Ua _]. refine (IH m te false None ctx (rev a) w [] eb ep W S _ P1 T X v2 V L I). now apply Forall_rev.
  - (* CAdapt *) intros a c IH m te dl k ctx s v r eb ep W S U P T X v2 V L K. apply variant_id in V; [|reflexivity]. subst v2.
    cbn [parse wf] in *. cbn in S. apply bind_ok in P as ([w r0] & P & E). apply bind_ok in E as (x & D & E). injection E as <- _.
    destruct (HA a c m dl k ctx s w r0 x eb ep S W U P D L K) as (w1 & w1' & v' & A1 & C & E). exists v'. split; [|exact E]. cbn [conf]. eauto.
  - (* CSelect *) intros l IH m te dl k ctx s v r eb ep W S U P T X v2 V L K. apply variant_id in V; [|reflexivity]. subst v2.
    cbn [parse wf] in *. cbn in S. apply orb_prop in S as [S|S]; [eapply wide_sound; eauto|].
    eapply (IH m te dl [] ctx s v r eb ep); eauto. intros cj [].
  - (* CNamed *) intros name c IH m te dl k ctx s v r eb ep W S U P T X v2 V L K. apply variant_id in V; [|reflexivity]. subst v2.
    cbn [parse wf] in *. cbn in S. andb S. apply bind_ok in P as ([w r0] & P & E). destruct w as [| | | | | | | | | |d| | | | |]; try discriminate. injection E as <- _.
    destruct (keys_of c) as [ks|] eqn:Kc; [|discriminate]. destruct (keys_parse _ _ _ _ _ _ _ _ _ _ Kc W S0 P) as (d0 & E & Hd). injection E as <-.
    apply vis_hidden in S2. apply smem_not in S1. pose proof (Hd _ S2 S1) as Nn.
    destruct (IH m te dl None ctx s (VDict d) r0 eb ep W S0 U P T X (VDict (dset "_name" (VStr (cps name)) d))) as (v' & C & E); auto.
    { right. split; [exact S|]. do 2 eexists. split; [reflexivity|]. split; [reflexivity|]. apply ext_dset_hidden; [apply ext_refl|reflexivity]. } { exact I. }
    assert (exists d', v' = VDict d') as (d' & ->). { rewrite pub_dict in E. inversion E; eauto. }
    exists (VDict d'). split.
    + cbn [conf]. exists (dset "_name" (VStr (cps name)) d), d'. split; [reflexivity|]. split; [reflexivity|].
      rewrite dget_dset_neq by (intros ->; discriminate). rewrite Nn. exact C.
    + rewrite pub_dict in *. now rewrite pubd_dset_hidden by reflexivity.
  - (* CSwitch *) intros k cs IH m te dl k0 ctx s v r eb ep W S U P T X v2 V L K. apply variant_id in V; [|reflexivity]. subst v2.
    cbn [parse wf] in *. cbn in S. andb W. destruct (tget k te) as [kd|] eqn:Ek; [|discriminate]. destruct (T _ _ Ek) as (_ & x & G1 & G2 & Kx).
    unfold dgetr in P. rewrite G1 in P. cbn [bind] in P. destruct (kind_int _ _ Kx) as (z & Ez). rewrite (int_key_as_int _ _ Ez) in P.
    destruct (IH m te dl z ctx s v r eb ep W0 S U P T X L) as (v' & C & E). exists v'. split; [|exact E]. cbn [conf].
    exists x, x, z. repeat split; auto. apply X; [now apply vis_hidden|exact G1].
  - (* CEnumSwitchStruct *) intros k cs IH m te dl k0 ctx s v r eb ep W S U P T X v2 V L K. apply variant_id in V; [|reflexivity]. subst v2.
    cbn [parse wf] in *. cbn in S. andb W. destruct (tget k te) as [[|t|t]|] eqn:Ek; try discriminate. andb S. destruct (T _ _ Ek) as (_ & x & G1 & G2 & Kx).
    destruct Kx as (n & z & -> & B). unfold dgetr in P. rewrite G1 in P. cbn [bind] in P. apply bind_ok in P as ([w r0] & P & E). injection E as <- _.
    destruct (lossless_dict u [(lower n, w)] (lower n) w L ltac:(now left)) as [Lw _].
    destruct (IH m te dl z ctx s w r0 eb ep W0 S0 U P T X Lw) as (v' & C & E).
    destruct (enum_cases_find _ _ _ _ S B) as (c & Fc). exists (VDict [(lower n, v')]). split.
    + cbn [conf]. exists (VEnum n z), n, z, c, [(lower n, w)], w, v'. repeat split; auto; [apply X; [now apply vis_hidden|exact G1]|].
      cbn [dget]. now rewrite String.eqb_refl.
    + rewrite pub_dict. cbn [pubd]. rewrite (vis_find_case _ _ _ _ W1 Fc). apply eqv_dict. constructor; [split; [reflexivity|exact E]|constructor].
  - (* CIfDefault *) intros k c IH df m te dl k0 ctx s v r eb ep W S U P T X v2 V L K. apply variant_id in V; [|reflexivity]. subst v2.
    cbn [parse wf] in *. cbn in S. andb W. destruct (tget k te) as [[| |]|] eqn:Ek; try discriminate. destruct (T _ _ Ek) as (_ & x & G1 & G2 & (z & ->)).
    unfold dgetr in P. rewrite G1 in P. cbn [bind truthy] in P.
    assert (G3 : dget k eb = Some (VInt z)) by (apply X; [now apply vis_hidden|exact G1]).
    destruct (Z.eqb_spec z 0) as [Hz|Hz]; cbn [negb] in P.
    + subst z. injection P as <- _. exists df. split.
      * cbn [conf]. exists (VInt 0), (VInt 0), 0. repeat split; auto.
      * destruct df; try discriminate. apply eqv_refl.
    + destruct (IH m te dl None ctx s v r eb ep W1 S U P T X v ltac:(now left) L I) as (v' & C & E). exists v'. split; [|exact E].
      cbn [conf]. exists (VInt z), (VInt z), z. repeat split; auto. destruct (Z.eqb_spec z 0); [contradiction|exact C].
  - (* COpcode *) intros t m te dl k ctx s v r eb ep W S U P T X v2 V L K. apply variant_id in V; [|reflexivity]. subst v2.
    cbn [parse wf] in *. destruct m; [discriminate|]. apply bind_ok in P as ([z r0] & P & E). destruct (by_value t z) as [y|] eqn:B; [|discriminate]. injection E as <- _.
    destruct (by_value_enum _ _ _ B) as (n & -> & _). eexists. split; [|apply eqv_refl]. cbn [conf]. exists z. repeat split; auto. eapply legal_parse; eauto.
  - (* CSwitchStruct *) intros k kc IHk t sw cs IH m te dl k0 ctx s v r eb ep W S U P T X v2 V L K. apply variant_id in V; [|reflexivity]. subst v2.
    cbn [parse wf] in *. cbn in S. andb W. andb S. destruct (kind_of kc) as [[|t'|t']|] eqn:Kk; try discriminate. apply enum_eqb_eq in S. subst t'.
    apply bind_ok in P as ([kv r0] & Pk & P). pose proof (kind_parse _ _ _ _ _ _ Kk Pk) as Hk. destruct Hk as (n & z & -> & B).
    apply bind_ok in P as ([x r1] & P & E). injection E as <- _.
    assert (Hn : lower n <> k).
    { destruct (by_value_enum _ _ _ B) as (n' & E & Hin). injection E as <-. rewrite forallb_forall in S1. specialize (S1 _ Hin). cbn [fst] in S1.
      intros E. rewrite E, String.eqb_refl in S1. discriminate. }
    assert (Hd : dset (lower n) x [(k, VEnum n z)] = [(k, VEnum n z); (lower n, x)]).
    { cbn [dset]. destruct (String.eqb_spec (lower n) k); [contradiction|reflexivity]. }
    pose proof Hn as Hn2. apply String.eqb_neq in Hn2. rewrite Hn2 in L |- *. destruct (lossless_dict u _ (lower n) x L ltac:(right; now left)) as [Lx _].
    pose proof (parse_units kc m [] s _ _ ltac:(eassumption) U Pk) as U0.
    assert (Lk : lossless u (VEnum n z)) by (intros j y Hj; inversion Hj).
    destruct (IHk m [] true None [] s (VEnum n z) r0 [(k, VEnum n z); (sw, x)] [] ltac:(eassumption) S3 U Pk (typed_nil _ _)) with (v2 := VEnum n z) as (kv' & Ck & _);
      [intros j y _ E; discriminate|now left|exact Lk|exact I|].
    assert (kv' = VEnum n z) by (eapply kind_conf; [exact Kk| |exact Ck]; cbn [has_kind]; eauto). subst kv'.
    destruct (IH m [(k, KE t)] dl z [(k, VEnum n z)] r0 x r1 [(k, VEnum n z); (sw, x)] [(k, VEnum n z)] ltac:(eassumption) ltac:(eassumption) U0 P) as (x' & C & E).
    + intros j kd Ej. cbn [tget] in Ej. destruct (String.eqb_spec j k) as [-> |]; [|discriminate]. injection Ej as <-. split; [now apply vis_hidden|]. exists (VEnum n z).
      cbn [dget]. rewrite String.eqb_refl. cbn [has_kind]. eauto 6.
    + intros j y Hj Ej. cbn [dget] in *. destruct (String.eqb j k); [exact Ej|discriminate].
    + exact Lx.
    + exists (VDict (dset (lower n) x' [(k, VEnum n z)])). split.
      * cbn [conf]. exists [(k, VEnum n z); (lower n, x)], (VEnum n z), z, n, x, x'. repeat split; auto.
        -- cbn [dget]. now rewrite String.eqb_refl.
        -- left. cbn [dget]. destruct (String.eqb_spec (lower n) k); [contradiction|]. now rewrite String.eqb_refl.
      * apply eqv_vdict. unfold rel. cbn [pubd]. rewrite (vis_hidden _ ltac:(eassumption)). rewrite (vis_enum_by_value t z n z ltac:(eassumption) B).
        cbn [dset]. destruct (String.eqb_spec (lower n) k); [contradiction|]. constructor; [split; [reflexivity|apply eqv_refl]|].
        constructor; [split; [reflexivity|exact E]|constructor].
  - (* CProp *) intros hdr IHh t cs IH m te dl k ctx s v r eb ep W S U P T X v2 V L K. apply variant_id in V; [|reflexivity]. subst v2.
    cbn [parse wf] in *. cbn in S. andb W. andb S. apply bind_ok in P as ([h r0] & Ph & P). destruct h as [| | | | | | | | | |h| | | | |]; try discriminate.
    apply bind_ok in P as (idv & Gi & P). unfold dgetr in Gi. destruct (dget "property_id" h) as [idv'|] eqn:G; [|discriminate]. injection Gi as ->.
    apply bind_ok in P as (z & Ez & P). destruct (by_value t z) as [[]|] eqn:B; try discriminate. destruct (find_case z0 cs) as [[n c]|] eqn:F; [|discriminate].
    apply bind_ok in P as ([x r1] & P & E). injection E as <- _. rename name into nm.
    assert (z0 = z). { destruct (by_value_enum _ _ _ B) as (n' & E & _). now injection E. } subst z0.
    destruct (header_sound "property_id" t hdr m te ctx s h r0 eb ep idv) as (I & Hv & Hh); auto.
    assert (idv = VEnum nm z). { destruct I as (z' & E1 & E2). unfold as_intr in Ez. rewrite E1 in Ez. injection Ez as ->. now rewrite B in E2. } subst idv.
    assert (Hl : hidden (lower nm) = false) by (eapply vis_enum_by_value; eauto).
    destruct (Hh (lower nm) x ltac:(right; eauto) Hl) as (Hne & Hh2). destruct (Hh2 L) as (h' & C & G' & Q). clear Hh Hh2.
    destruct (lossless_dict u _ (lower nm) x L (dget_In _ _ _ (dget_dset_eq _ _ _))) as [Lx _].
    pose proof (parse_units _ _ _ _ _ _ ltac:(eassumption) U Ph) as U0.
    destruct (IH m te dl z ctx r0 x r1 eb ep ltac:(eassumption) ltac:(eassumption) U0 P T X Lx) as (x' & Cx & Ex).
    exists (VDict (dset (lower nm) x' (dset "property_id" (VEnum nm z) (ddel "property_id" h')))). split; [|now apply Q].
    cbn [conf]. do 9 eexists. split; [reflexivity|]. split; [exact C|]. split; [|split].
    { rewrite dget_dset_neq by (intros E; now apply Hne). apply dget_dset_eq. } { reflexivity. }
    split; [exact B|]. split; [|split; [exact G'|split; [reflexivity|split; [apply dget_dset_eq|split; [exact Cx|reflexivity]]]]].
    rewrite F. f_equal. f_equal. eapply case_names_eq; eauto.
  - (* CSensorSetting *) intros hdr IHh t cs IH m te dl k ctx s v r eb ep W S U P T X v2 V L K. apply variant_id in V; [|reflexivity]. subst v2.
    cbn [parse wf] in *. cbn in S. andb W. andb S. apply bind_ok in P as ([h r0] & Ph & P). destruct h as [| | | | | | | | | |h| | | | |]; try discriminate.
    apply bind_ok in P as (idv & Gi & P). unfold dgetr in Gi. destruct (dget sid_name h) as [idv'|] eqn:G; [|discriminate]. injection Gi as ->.
    destruct (header_sound sid_name t hdr m te ctx s h r0 eb ep idv) as (I & Hv & Hh); auto.
    destruct I as (z & Ez & Mz). 
    assert (exists nm, setting_id t idv = (idv, nm) /\ setting_entry t z idv nm /\ (by_value t z = None -> idv = VInt z) /\ hidden nm = false
                       /\ (nm = raw_name \/ exists n z, by_value t z = Some (VEnum n z) /\ nm = lower n)) as (nm & Es & Se & Hz & Hn & Hnm).
    { unfold setting_id, setting_entry. rewrite (int_key_as_int _ _ Ez). destruct (by_value t z) as [mv|] eqn:B.
      - destruct (by_value_enum _ _ _ B) as (n & -> & _). subst idv. exists (lower n). split; [reflexivity|]. split; [eauto|]. split; [discriminate|].
        split; [eapply vis_enum_by_value; eauto|]. right. eauto.
      - exists raw_name. split; [reflexivity|]. auto. }
    rewrite Es in P. unfold as_intr in P. rewrite Ez in P. cbn [bind] in P.
    pose proof (parse_units _ _ _ _ _ _ ltac:(eassumption) U Ph) as U0.
    apply negb_true_iff in S2. subst dl. destruct m; [discriminate|].
    assert (exists x x', v = VDict (dset nm x (dset sid_name idv (ddel sid_name h))) /\ eqv (pub x) x' /\
            match find_case z cs with Some _ => conf_case A_spec z cs false eb ep x x' | None => false = false /\ exists l, raw_bytes x l /\ x' = VList (map VInt l) end) as (x & x' & -> & Ex & Cx).
    { destruct (find_case z cs) as [[n c]|] eqn:F.
      - apply bind_ok in P as ([x r1] & P & E). injection E as <- _. exists x.
        destruct (lossless_dict u _ nm x L (dget_In _ _ _ (dget_dset_eq _ _ _))) as [Lx _].
        destruct (IH false te false z ctx r0 x r1 eb ep ltac:(eassumption) ltac:(eassumption) U0 P T X Lx) as (x' & Cx & Ex). eauto 6.
      - injection P as <- _. exists (VList (map VInt r0)), (VList (map VInt r0)). split; [reflexivity|]. split.
        + replace (pub (VList (map VInt r0))) with (VList (map VInt r0)); [apply eqv_refl|]. cbn [pub]. f_equal. rewrite map_map. reflexivity.
        + split; [reflexivity|]. exists r0. split; [|reflexivity]. split; [exact U0|now left]. }
    destruct (Hh nm x Hnm Hn) as (Hne & Hh2). destruct (Hh2 L) as (h' & C & G' & Q). clear Hh Hh2.
    exists (VDict (dset nm x' (dset sid_name idv (ddel sid_name h')))). split; [|now apply Q].
    cbn [conf]. do 9 eexists. split; [reflexivity|]. split; [exact C|]. split; [|split; [exact Ez|]].
    { rewrite dget_dset_neq by (intros E; now apply Hne). apply dget_dset_eq. }
    split; [exact G'|]. split; [exact Ez|]. split; [exact Hz|]. split; [exact Se|]. split; [apply dget_dset_eq|]. split; [exact Cx|reflexivity].
  - intros. intros m te dl k ctx s v r eb ep W S. discriminate S.
  - (* FNil *) intros m te dl obj s d r eb ep o W S U P D Fr T R X1 X2 L. cbn [parse_fields] in P. injection P as <- _. exists ep. split; [reflexivity|exact R].
  - (* FCons *) intros k c IHc fs IH m te dl obj s d r eb ep o W S U P D Fr T R X1 X2 L.
    pose proof (kept_ext (FCons k c fs) te dl m obj s d r W S P Fr) as EX.
    cbn [parse_fields wff] in *. cbn in S. cbn [names distinct] in D. unfold fresh in Fr. cbn [names] in Fr. andb W. andb S. andb D.
    apply bind_ok in P as ([v r0] & Pc & P). apply negb_true_iff in D. apply vis_hidden in W.
    pose proof (fresh_next k v fs obj D Fr) as Fr'.
    assert (Gk : dget k d = Some v) by (rewrite (kept _ _ _ _ _ _ _ _ k W0 S0 P W ltac:(now apply existsb_string)); apply dget_dset_eq).
    destruct (L k v W Gk) as [Lv Lk].
    destruct (IHc m te (match fs with FNil => dl | _ => true end) (Some k) obj s v r0 eb ep W1 S U Pc T) with (v2 := v) as (v' & C & E); auto; [|now left|].
    { intros j y Hj Hy. apply X1; auto. }
    assert (Tn : typed (tadd k (kind_of c) te) (dset k v obj) (dset k v' ep)).
    { destruct (kind_of c) as [kd|] eqn:Kc; cbn [tadd]; [|apply typed_skip; auto; apply Fr; now left].
      pose proof (kind_parse _ _ _ _ _ _ Kc Pc) as Hk. assert (v' = v) by (eapply kind_conf; eauto). subst. apply typed_add; auto. apply Fr. now left. }
    destruct (IH m _ dl (dset k v obj) r0 d r (dset k v eb) (dset k v' ep) o W0 S0 (parse_units _ _ _ _ _ _ W1 U Pc) P D0 Fr' Tn) as (d' & C' & R'); auto.
    { now apply rel_dset. } { now apply ext_dset. }
    exists d'. split; [|exact R']. cbn [conf_fields]. exists v, v'. repeat split; auto.
  - (* FDefault *) intros k c IHc df fs IH m te dl obj s d r eb ep o W S U P D Fr T R X1 X2 L.
    pose proof (kept_ext (FDefault k c df fs) te dl m obj s d r W S P Fr) as EX.
    cbn [parse_fields wff] in *. cbn in S. cbn [names distinct] in D. unfold fresh in Fr. cbn [names] in Fr. andb W. andb S. andb D.
    apply bind_ok in P as ([v r0] & Pc & P). apply negb_true_iff in D. apply vis_hidden in W.
    pose proof (fresh_next k v fs obj D Fr) as Fr'.
    assert (Gk : dget k d = Some v) by (rewrite (kept _ _ _ _ _ _ _ _ k W0 S0 P W ltac:(now apply existsb_string)); apply dget_dset_eq).
    destruct (L k v W Gk) as [Lv Lk].
    destruct (IHc m te (match fs with FNil => dl | _ => true end) (Some k) obj s v r0 eb ep W1 S1 U Pc T) with (v2 := v) as (v' & C & E); auto; [|now left|].
    { intros j y Hj Hy. apply X1; auto. }
    assert (Tn : typed te (dset k v obj) (dset k v' ep)) by (apply typed_skip; auto; apply Fr; now left).
    destruct (IH m _ dl (dset k v obj) r0 d r (dset k v eb) (dset k v' ep) o W0 S0 (parse_units _ _ _ _ _ _ W1 U Pc) P D0 Fr' Tn) as (d' & C' & R'); auto.
    { now apply rel_dset. } { now apply ext_dset. }
    exists d'. split; [|exact R']. cbn [conf_fields]. exists v, v'. repeat split; auto. rewrite (X2 _ _ W Gk).
    destruct c; try discriminate. cbn [parse] in Pc. apply bind_ok in Pc as ([l r1] & _ & Ec). now injection Ec as <- _.
  - (* FRebuild *) intros k e c IHc fs IH m te dl obj s d r eb ep o W S U P D Fr T R X1 X2 L.
    pose proof (kept_ext (FRebuild k e c fs) te dl m obj s d r W S P Fr) as EX.
    cbn [parse_fields wff] in *. cbn in S. cbn [names distinct] in D. unfold fresh in Fr. cbn [names] in Fr. andb W. andb S. andb D.
    apply bind_ok in P as ([v r0] & Pc & P). apply negb_true_iff in D. apply vis_hidden in W.
    pose proof (fresh_next k v fs obj D Fr) as Fr'.
    assert (Gk : dget k d = Some v) by (rewrite (kept _ _ _ _ _ _ _ _ k W0 S0 P W ltac:(now apply existsb_string)); apply dget_dset_eq).
    destruct (L k v W Gk) as [Lv Lk].
    destruct (IHc m te (match fs with FNil => dl | _ => true end) (Some k) obj s v r0 eb ep W1 S1 U Pc T) with (v2 := v) as (v' & C & E); auto; [|now left|].
    { intros j y Hj Hy. apply X1; auto. }
    destruct (kind_of c) as [[| |]|] eqn:Kc; try discriminate. pose proof (kind_parse _ _ _ _ _ _ Kc Pc) as Hk. assert (v' = v) by (eapply kind_conf; eauto). subst v'.
    assert (Tn : typed ((k, KI) :: te) (dset k v obj) (dset k v ep)) by (apply typed_add; auto; apply Fr; now left).
    destruct (IH m _ dl (dset k v obj) r0 d r (dset k v eb) (dset k v ep) o W0 S0 (parse_units _ _ _ _ _ _ W1 U Pc) P D0 Fr' Tn) as (d' & C' & R'); auto.
    { now apply rel_dset. } { now apply ext_dset. }
    exists d'. split; [|exact R']. cbn [conf_fields]. destruct Hk as (n & ->). exists n, (VInt n). repeat split; auto.
    eapply (counted_eval k e fs); eauto; [now apply existsb_string|apply dget_dset_eq|eapply flookup_vis; eauto].
  - (* FPad *) intros k n fs IH m te dl obj s d r eb ep o W S U P D Fr T R X1 X2 L.
    cbn [parse_fields wff] in *. cbn in S. cbn [names] in D. andb S.
    apply bind_ok in P as ([v r0] & Pc & P). destruct (units_take _ _ _ _ _ Pc U) as [_ U0]. destruct k as [k|].
    + assert (Tn : typed te (dset k VNone obj) ep).
      { intros j kd E. destruct (T _ _ E) as (Hj & x & G1 & G2 & G3). split; [exact Hj|]. exists x. split; [|auto]. rewrite dget_dset_neq; [exact G1|]. intros ->. congruence. }
      destruct (IH m te dl (dset k VNone obj) r0 d r (dset k (match dget k o with Some x => x | None => VNone end) eb) ep o W S0 U0 P D) as (d' & C & R'); auto.
      * intros j Hj. rewrite dget_dset_neq; [now apply Fr|]. intros ->. pose proof (names_vis _ _ W _ Hj). congruence.
      * unfold rel. now rewrite pubd_dset_hidden.
      * now apply ext_dset_hidden.
      * exists d'. split; [|exact R']. cbn [conf_fields]. now rewrite S.
    + destruct (IH m te dl obj r0 d r eb ep o W S0 U0 P D) as (d' & C & R'); auto. exists d'. split; [|exact R']. exact C.
  - (* FStopIf *) intros k fs IH m te dl obj s d r eb ep o W S U P D Fr T R X1 X2 L.
    pose proof (kept_ext (FStopIf k fs) te dl m obj s d r W S P Fr) as EX.
    cbn [parse_fields wff] in *. cbn in S. cbn [names] in D. andb W. destruct (tget k te) as [[| |]|] eqn:Ek; try discriminate.
    destruct (T _ _ Ek) as (_ & x & G1 & G2 & (z & ->)). unfold dgetr in P. rewrite G1 in P. cbn [bind] in P.
    change (match num_of (VInt z) with Some q => Qzero q | None => false end) with (is_zero (VInt z)) in P.
    assert (G3 : dget k eb = Some (VInt z)) by (apply X1; [now apply vis_hidden|]; apply EX; [now apply vis_hidden|exact G1]).
    destruct (is_zero (VInt z)) eqn:Ez.
    + injection P as <- _. exists ep. split; [|exact R]. cbn [conf_fields]. exists (VInt z), (VInt z). repeat split; auto. now rewrite Ez.
    + destruct (IH m te dl obj s d r eb ep o W0 S U P D Fr T R X1 X2 L) as (d' & C & R'). exists d'. split; [|exact R'].
      cbn [conf_fields]. exists (VInt z), (VInt z). repeat split; auto. now rewrite Ez.
  - (* FBits *) intros n bs IHb fs IH m te dl obj s d r eb ep o W S U P D Fr T R X1 X2 L.
    cbn [parse_fields wff] in *. cbn in S. cbn [names] in D. unfold fresh in Fr. cbn [names] in Fr. andb W. andb S.
    apply bind_ok in P as ([a r0] & Pa & P). apply bind_ok in P as ([bd r1] & Pb & P). destruct r1; [|discriminate].
    destruct (distinct_app _ _ D) as (D1 & D2 & D3). destruct (units_take _ _ _ _ _ Pa U) as [_ U0].
    destruct (copy_eq bs bd _ _ (dset "_" (VDict bd) obj) ltac:(eassumption) Pb) as (E & N & En). rewrite E in P. clear E.
    set (obj' := dmerge (dset "_" (VDict bd) obj) bd) in *.
    assert (Hb : forall k x, hidden k = false -> dget k bd = Some x -> In k (names bs)).
    { intros k x Hk Hx. eapply names_bit; [exact En|eassumption|exact Hk|]. apply dget_In in Hx. unfold keys. apply in_map_iff. exists (k, x). auto. }
    assert (G : forall k, hidden k = false -> dget k obj' = match dget k bd with Some x => Some x | None => dget k obj end).
    { intros k Hk. unfold obj'. rewrite dget_dmerge by exact N. destruct (dget k bd); [reflexivity|]. apply dget_dset_neq. intros ->. discriminate. }
    assert (Fr' : fresh fs obj').
    { intros k Hk. pose proof (names_vis _ _ W0 _ Hk) as Hv. rewrite G by exact Hv. destruct (dget k bd) as [x|] eqn:Ex; [|apply Fr, in_or_app; now right].
      exfalso. eauto. }
    pose proof (kept_ext fs te dl m obj' r0 d r W0 S0 P Fr') as EX.
    assert (Xb : ext bd d). { intros k x Hk Hx. apply EX; [exact Hk|]. rewrite G, Hx by exact Hk. reflexivity. }
    destruct (IHb true [] false [] (bytes2bits (rev a)) bd [] eb [] eb ltac:(eassumption) S (bytes2bits_bits _) Pb D1) as (db & Cb & Rb).
    { intros k _. reflexivity. } { apply typed_nil. } { constructor. } { intros k x Hk Hx. auto. } { intros k x Hk Hx. auto. } { intros k x Hk Hx. apply L; auto. }
    assert (Tn : typed te obj' (dmerge ep db)).
    { intros k kd Ek. destruct (T _ _ Ek) as (Hk & x & G1 & G2 & G3). split; [exact Hk|]. exists x.
      assert (Nb : dget k bd = None). { destruct (dget k bd) as [y|] eqn:Ey; [|reflexivity]. rewrite Fr in G1; [discriminate|]. apply in_or_app. left. eauto. }
      rewrite G, Nb by exact Hk. split; [exact G1|]. split; [|exact G3]. rewrite dget_dmerge_none; [exact G2|]. eapply eqvd_dget; [exact Rb|].
      rewrite dget_pubd, Nb by exact Hk. reflexivity. }
    destruct (IH m te dl obj' r0 d r eb (dmerge ep db) o W0 S0 U0 P D2 Fr' Tn) as (d' & C' & R'); auto.
    { unfold rel, obj'. rewrite pubd_dmerge, pubd_dset_hidden by reflexivity. now apply eqvd_dmerge. }
    exists d'. split; [|exact R']. cbn [conf_fields]. eauto.
  - (* KNil *) intros m te dl z ctx s v r eb ep W S U P T X L. cbn [parse_case] in P. injection P as <- _. exists VNone. split; [split; reflexivity|apply eqv_refl].
  - (* KCons *) intros n w c IHc cs IH m te dl z ctx s v r eb ep W S U P T X L. cbn [parse_case wfk conf_case] in *. cbn in S. andb W. andb S.
    destruct (z =? w); [|eapply IH; eauto]. eapply (IHc m te dl None ctx s v r eb ep); eauto; [now left|exact I].
  - (* ANil *) intros m te dl prev ctx s v r eb ep W S U F P. discriminate.
  - (* ACons *) intros c IHc l IH m te dl prev ctx s v r eb ep W S U F P T X L. cbn [parse_alts wfa conf_alts] in *. cbn in S. andb W. andb S.
    destruct (parse c ctx s) as [[w r0]|e|] eqn:E; [| |discriminate].
    + injection P as <- <-. destruct (IHc m te dl None ctx s w r0 eb ep W S U E T X w ltac:(now left) L I) as (v' & C & Ev). exists v'. split; [|exact Ev]. left.
      split; [exact C|]. apply Forall_forall. intros cj Hj. rewrite forallb_forall in S1. destruct (F _ Hj) as (e & Pj). eapply exclb_excl; eauto.
    + destruct (IH m te dl (c :: prev) ctx s v r eb ep W0 S0 U) as (v' & C & Ev); auto.
      { intros cj [<- |Hj]; eauto. }
      exists v'. split; [|exact Ev]. now right.
Qed.
End Main.

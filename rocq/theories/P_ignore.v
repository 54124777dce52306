(** * P_ignore: what a builder looks at (C09), and counts (C38). *)
From Coq Require Import Permutation.
From Verif Require Import PyVal Bits Utf8 Adapters Construct Size Spec Master AdapterSpec AdapterProofs1 AdapterProofs4 Access AccessProofs Conform Deps Doc
  G_config G_generics G_onoff G_sensor G_rrule P_layout P_params.

(** ** Specification: when two arguments are the same for a declaration *)
(** a date given as a dict *)
Definition date_keys : list string := ["year"; "month"; "day"]%string.
Definition datetime_keys : list string := ["year"; "month"; "day"; "hour"; "minute"; "second"; "microsecond"; "time_zone_offset"]%string.
Definition same_at (ks : list string) (v v' : val) : Prop :=
  v = v' \/ exists d d', v = VDict d /\ v' = VDict d' /\ agree ks d d'.
Definition same_date (d d' : dict) : Prop :=
  match dget "date" d, dget "date" d' with
  | Some x, Some x' => same_at datetime_keys x x'
  | None, None => True
  | _, _ => False
  end.
(** the arguments of the adapters that take a dict *)
Definition same_adapted (a : adapter) (v v' : val) : Prop :=
  v = v' \/ exists d d', v = VDict d /\ v' = VDict d' /\
  match a with
  | ARetransmit _ => agree ["count"; "interval"]%string d d'
  | ADate => agree date_keys d d'
  | ATime => agree ["uncertainty"; "tai_utc_delta"; "time_authority"]%string d d' /\ same_date d d'
  | ATimestamp => agree ["tai_utc_delta"]%string d d' /\ same_date d d'
  | _ => False
  end.
Definition same_len (o o' : option val) : Prop :=
  match o, o' with Some x, Some x' => vlen x = vlen x' | None, None => True | _, _ => False end.
Definition same_key (k : string) (x x' : dict) : Prop := dget k x = dget k x'.
(** the value carried by a sensor setting: under the name of the property, or raw *)
Definition raw_of (name : string) (d : dict) : val := match dget name d with Some x => x | None => dgetn raw_name d end.
Definition nonempty_dicts (v v' : val) : Prop := exists k x d k' x' d', v = VDict ((k, x) :: d) /\ v' = VDict ((k', x') :: d').

(** [same c ctx ctx' v v']: [v] and [v'] hold the same thing wherever the declaration [c]
    looks: dicts may differ in the order of their keys and in keys the declaration does
    not mention - at every depth - and in the counts it computes itself.  [ctx], [ctx']
    are the enclosing messages. *)
Fixpoint same (c : con) (ctx ctx' : dict) (v v' : val) {struct c} : Prop :=
  match c with
  | CStruct fs => v = v' \/ exists d d', v = VDict d /\ v' = VDict d' /\ same_fields fs d d' d d'
  | CNamed n c1 =>
      v = v' /\ agree (deps c1) ctx ctx' \/ exists d d', v = VDict d /\ v' = VDict d' /\
      match dget n d, dget n d' with
      | Some x, Some x' => same c1 ctx ctx' x x'
      | None, None => same c1 ctx ctx' v v'
      | _, _ => False
      end
  | CSelect l => same_alts l ctx ctx' v v'
  | CArray e c1 => agree (edeps e) ctx ctx' /\ (v = v' /\ agree (deps c1) ctx ctx' \/ exists l l', v = VList l /\ v' = VList l' /\ Forall2 (same c1 ctx ctx') l l')
  | CGreedyRange c1 | CPrefixedArray c1 => v = v' /\ agree (deps c1) ctx ctx' \/ exists l l', v = VList l /\ v' = VList l' /\ Forall2 (same c1 ctx ctx') l l'
  | CBitwise c1 | CBytewise c1 | CReversed _ c1 => same c1 ctx ctx' v v'
  | CAdapt a c1 => same_adapted a v v' /\ agree (deps c1) ctx ctx'
  | CSwitch k cs => same_key k ctx ctx' /\
      match dget k ctx with
      | Some kv => match int_key kv with Some z => same_case z cs ctx ctx' v v' | None => True end
      | None => True
      end
  | CEnumSwitchStruct k cs => same_key k ctx ctx' /\
      match dget k ctx with
      | Some kv => match int_key kv with
          | Some z => match find_case z cs with
              | Some (n, _) => (v = v' /\ agree (depsk cs) ctx ctx') \/ exists d d', v = VDict d /\ v' = VDict d' /\
                  match dget (lower n) d, dget (lower n) d' with
                  | Some x, Some x' => same_case z cs ctx ctx' x x'
                  | None, None => True
                  | _, _ => False
                  end
              | None => True
              end
          | None => True
          end
      | None => True
      end
  | CIfDefault k c1 _ => same_key k ctx ctx' /\
      match dget k ctx with Some kv => if truthy kv then same c1 ctx ctx' v v' else True | None => True end
  | CSwitchStruct k kc t sw cs =>
      v = v' \/ exists d d', v = VDict d /\ v' = VDict d' /\ same_key k d d' /\
      match dget k d with
      | Some kv => match int_key kv with
          | Some z => match by_value t z with
              | Some (VEnum n w) =>
                  match (match dget (lower n) d with Some x => Some x | None => dget sw d end),
                        (match dget (lower n) d' with Some x => Some x | None => dget sw d' end) with
                  | Some x, Some x' => agree (deps kc) [(k, VEnum n w); (sw, x)] [(k, VEnum n w); (sw, x')] /\ same_case w cs [(k, VEnum n w); (sw, x)] [(k, VEnum n w); (sw, x')] x x'
                  | None, None => True
                  | _, _ => False
                  end
              | _ => True
              end
          | None => True
          end
      | None => True
      end
  | CProp hdr t cs =>
      same hdr ctx ctx' v v' /\ (v = v' /\ agree (depsk cs) ctx ctx' \/ exists d d', v = VDict d /\ v' = VDict d' /\ same_key "property_id" d d' /\
      match dget "property_id" d with
      | Some kv => match int_key kv with
          | Some z => match by_value t z with
              | Some (VEnum n w) => same_case w cs ctx ctx' (dgetn (lower n) d) (dgetn (lower n) d')
              | _ => True
              end
          | None => True
          end
      | None => True
      end)
  | CSensorSetting hdr t cs =>
      same hdr ctx ctx' v v' /\ (v = v' /\ agree (depsk cs) ctx ctx' \/ exists d d', v = VDict d /\ v' = VDict d' /\ same_key sid_name d d' /\
      match dget sid_name d with
      | Some idv => let (idv', name) := setting_id t idv in
          (raw_of name d = raw_of name d' /\ agree (depsk cs) ctx ctx') \/
          (nonempty_dicts (raw_of name d) (raw_of name d') /\
           match int_key idv' with Some z => same_case z cs ctx ctx' (raw_of name d) (raw_of name d') | None => True end)
      | None => True
      end)
  | CSensorData t cs =>
      v = v' /\ agree (depsk cs) ctx ctx' \/ exists d d', v = VDict d /\ v' = VDict d' /\ agree [sid_name; "format"%string; "length"%string] d d' /\
      match dget sid_name d with
      | Some idv => let (idv', name) := setting_id t idv in
          (raw_of name d = raw_of name d' /\ agree (depsk cs) ctx ctx') \/
          (nonempty_dicts (raw_of name d) (raw_of name d') /\
           match as_int idv with Some z => same_case z cs ctx ctx' (raw_of name d) (raw_of name d') | None => True end)
      | None => True
      end
  | CPaddedString e => v = v' /\ agree (edeps e) ctx ctx'
  | _ => v = v'
  end
with same_fields (fs : fields) (ctx ctx' d d' : dict) {struct fs} : Prop :=
  match fs with
  | FNil => True
  | FCons k c fs' =>
      match dget k d, dget k d' with
      | Some x, Some x' => same c ctx ctx' x x' /\ same_fields fs' (dset k x ctx) (dset k x' ctx') d d'
      | None, None => True
      | _, _ => False
      end
  | FDefault k c dv fs' =>
      let x := match dgetn k d with VNone => dv | y => y end in
      let x' := match dgetn k d' with VNone => dv | y => y end in
      same c ctx ctx' x x' /\ same_fields fs' (dset k x ctx) (dset k x' ctx') d d'
  | FRebuild k e c fs' =>                                (* the value passed for [k] is not looked at *)
      match e with ELen l => same_len (dget l ctx) (dget l ctx') | _ => agree (edeps e) ctx ctx' end /\
      agree (deps c) ctx ctx' /\
      forall n, same_fields fs' (dset k (VInt n) ctx) (dset k (VInt n) ctx') d d'
  | FPad k n fs' =>
      match k with Some k => same_fields fs' (dset k (dgetn k d) ctx) (dset k (dgetn k d') ctx') d d' | None => same_fields fs' ctx ctx' d d' end
  | FStopIf k fs' => same_key k ctx ctx' /\ same_fields fs' ctx ctx' d d'
  | FBits n bs fs' => same_fields bs ctx ctx' ctx ctx' /\ same_fields fs' ctx ctx' d d'
  end
with same_case (z : Z) (cs : cases) (ctx ctx' : dict) (v v' : val) {struct cs} : Prop :=
  match cs with
  | KNil => True
  | KCons _ w c cs' => if Z.eqb z w then same c ctx ctx' v v' else same_case z cs' ctx ctx' v v'
  end
with same_alts (l : alts) (ctx ctx' : dict) (v v' : val) {struct l} : Prop :=
  match l with
  | ANil => True
  | ACons c l' => same c ctx ctx' v v' /\ same_alts l' ctx ctx' v v'
  end.

(** ** Proof *)
Lemma datetime_of_same v v' : same_at datetime_keys v v' -> datetime_of v = datetime_of v'.
Proof.
  intros [->|(d & d' & -> & -> & H)]; [reflexivity|]. unfold datetime_of, geti, dgetr.
  rewrite !(H _) by (cbn; tauto). reflexivity.
Qed.
Lemma same_adapted_encode a v v' : same_adapted a v v' -> encode a v = encode a v'.
Proof.
  intros [->|(d & d' & -> & -> & H)]; [reflexivity|].
  assert (D : same_date d d' -> forall (f : Z * Z -> res val), (let* dt := dgetr "date" d in let* p := datetime_of dt in f p) = (let* dt := dgetr "date" d' in let* p := datetime_of dt in f p)).
  { unfold same_date, dgetr. intros S f. destruct (dget "date" d), (dget "date" d'); try contradiction; [|reflexivity]. cbn [bind]. now rewrite (datetime_of_same _ _ S). }
  destruct a; try contradiction; cbn [encode].
  - unfold retransmit_encode, dgetr. rewrite !(H _) by (cbn; tauto). reflexivity.
  - unfold date_encode, geti, dgetr. rewrite !(H _) by (cbn; tauto). reflexivity.
  - destruct H as (H & S). unfold time_encode. rewrite (D S). unfold dgetr at 2 3 4 6 7 8. rewrite !(H _) by (cbn; tauto). reflexivity.
  - destruct H as (H & S). unfold timestamp_encode. rewrite (D S). unfold dgetr at 2 4. rewrite !(H _) by (cbn; tauto). reflexivity.
Qed.
Lemma build_list_same p q l l' : Forall2 (fun v v' => p v = q v') l l' -> build_list p l = build_list q l'.
Proof. induction 1 as [|x y l l' H _ IH]; [reflexivity|]. cbn [build_list]. now rewrite H, IH. Qed.
Lemma Forall2_imp {A} (P Q : A -> A -> Prop) l l' : (forall x y, P x y -> Q x y) -> Forall2 P l l' -> Forall2 Q l l'.
Proof. intros H. induction 1; constructor; auto. Qed.
Lemma Forall2_len {A} (P : A -> A -> Prop) l l' : Forall2 P l l' -> length l = length l'.
Proof. induction 1; cbn; congruence. Qed.
Lemma to_bytes_nonempty v v' : nonempty_dicts v v' -> to_bytes v = to_bytes v'.
Proof. intros (k & x & d & k' & x' & d' & -> & ->). reflexivity. Qed.

Lemma same_build_mut :
  (forall c a b v v', same c a b v v' -> build c a v = build c b v') /\
  (forall fs a b d d', same_fields fs a b d d' -> build_fields fs a d = build_fields fs b d') /\
  (forall cs z a b v v', same_case z cs a b v v' -> build_case z cs a v = build_case z cs b v') /\
  (forall l a b v v', same_alts l a b v v' -> build_alts l a v = build_alts l b v').
Proof.
  apply con_mutind; cbn [same same_fields same_case same_alts]; try (intros; subst; reflexivity).
  - intros e a b v v' (-> & H). now apply build_agree.
  - intros c IH a b v v' [(-> & H) | (l & l' & -> & -> & H)]; [now apply build_agree|]. cbn [build iter].
    rewrite (Forall2_len _ _ _ H), (build_list_same (build c a) (build c b) l l') by (eapply Forall2_imp; [|exact H]; intros; now apply IH). reflexivity.
  - intros e c IH a b v v' (He & [(-> & H) | (l & l' & -> & -> & H)]).
    { apply build_agree. cbn [deps]. intros k Hk. apply in_app_or in Hk as [Hk|Hk]; auto. }
    cbn [build iter]. rewrite (eval_agree _ _ _ He). apply bind_ext; [reflexivity|]. intros n.
    rewrite (Forall2_len _ _ _ H), (build_list_same (build c a) (build c b) l l') by (eapply Forall2_imp; [|exact H]; intros; now apply IH). reflexivity.
  - intros c IH a b v v' [(-> & H) | (l & l' & -> & -> & H)]; [now apply build_agree|]. cbn [build iter].
    apply build_list_same. eapply Forall2_imp; [|exact H]; intros; now apply IH.
  - intros fs IH a b v v' [-> | (d & d' & -> & -> & H)]; [reflexivity|]. cbn [build as_dict bind]. now apply IH.
  - intros c IH a b v v' H. cbn [build]. now rewrite (IH _ _ _ _ H).
  - intros c IH a b v v' H. cbn [build]. now rewrite (IH _ _ _ _ H).
  - intros n c IH a b v v' H. cbn [build]. now rewrite (IH _ _ _ _ H).
  - intros ad c IH a b v v' (H & Ha). cbn [build]. rewrite (same_adapted_encode _ _ _ H). apply bind_ext; [reflexivity|]. intros; now apply build_agree.
  - intros l IH a b v v' H. cbn [build]. now apply IH.
  - intros n c IH a b v v' [(-> & H) | (d & d' & -> & -> & H)]; [now apply build_agree|]. cbn [build].
    destruct (dget n d), (dget n d'); try contradiction; now apply IH.
  - intros k cs IH a b v v' (K & H). unfold same_key in K. cbn [build]. rewrite <- (dgetr_agree _ _ _ K). unfold dgetr.
    destruct (dget k a) as [kv|]; [|reflexivity]. cbn [bind]. destruct (int_key kv); [now apply IH|reflexivity].
  - intros k cs IH a b v v' (K & H). unfold same_key in K. cbn [build]. rewrite <- (dgetr_agree _ _ _ K). unfold dgetr at 1 3.
    destruct (dget k a) as [kv|]; [|reflexivity]. cbn [bind]. destruct (int_key kv) as [z|]; [|reflexivity].
    destruct (find_case z cs) as [[n c]|]; [|reflexivity]. destruct H as [(-> & H) | (d & d' & -> & -> & H)].
    + destruct v'; try reflexivity. apply bind_ext; [reflexivity|]. intros x. now apply (proj1 (proj2 (proj2 build_agree_mut))).
    + unfold dgetr. destruct (dget (lower n) d), (dget (lower n) d'); try contradiction; [|reflexivity]. cbn [bind]. now apply IH.
  - intros k c IH d a b v v' (K & H). unfold same_key in K. cbn [build]. rewrite <- (dgetr_agree _ _ _ K). unfold dgetr.
    destruct (dget k a) as [kv|]; [|reflexivity]. cbn [bind]. destruct (truthy kv); [now apply IH|reflexivity].
  - intros k kc IHk t sw cs IH a b v v' [-> | (d & d' & -> & -> & K & H)]; [reflexivity|]. unfold same_key in K. cbn [build].
    rewrite <- (dgetr_agree _ _ _ K). unfold dgetr at 1 3. destruct (dget k d) as [kv|]; [|reflexivity]. cbn [bind].
    destruct (int_key kv) as [z|]; [|reflexivity]. destruct (by_value t z) as [[]|]; try reflexivity. unfold dgetr.
    destruct (dget (lower name) d), (dget (lower name) d').
    1: { destruct H as (E & H). cbn [bind]. cbv zeta. rewrite (build_agree kc _ _ _ E), (IH _ _ _ _ _ H). reflexivity. }
    + destruct (dget sw d') as [x|]; [|contradiction]. destruct H as (E & H). cbn [bind]. cbv zeta. rewrite (build_agree kc _ _ _ E), (IH _ _ _ _ _ H). reflexivity.
    + destruct (dget sw d) as [x|]; [|contradiction]. destruct H as (E & H). cbn [bind]. cbv zeta. rewrite (build_agree kc _ _ _ E), (IH _ _ _ _ _ H). reflexivity.
    + destruct (dget sw d) as [x|], (dget sw d') as [x'|]; try contradiction; [|reflexivity]. destruct H as (E & H). cbn [bind]. cbv zeta. rewrite (build_agree kc _ _ _ E), (IH _ _ _ _ _ H). reflexivity.
  - intros hdr IHh t cs IH a b v v' (Hh & H). cbn [build]. rewrite (IHh _ _ _ _ Hh). apply bind_ext; [reflexivity|]. intros bs.
    destruct H as [(-> & H) | (d & d' & -> & -> & K & H)].
    + destruct v'; try reflexivity. apply bind_ext; [reflexivity|]. intros x. destruct (int_key x) as [z|]; [|reflexivity]. destruct (by_value t z) as [[]|]; try reflexivity.
      destruct (find_case _ cs); [|reflexivity]. now rewrite (proj1 (proj2 (proj2 build_agree_mut)) cs _ a b _ H).
    + unfold same_key in K. rewrite <- (dgetr_agree _ _ _ K). unfold dgetr. destruct (dget "property_id" d) as [kv|]; [|reflexivity]. cbn [bind].
      destruct (int_key kv) as [z|]; [|reflexivity]. destruct (by_value t z) as [[]|]; try reflexivity. destruct (find_case _ cs); [|reflexivity]. now rewrite (IH _ _ _ _ _ H).
  - intros hdr IHh t cs IH a b v v' (Hh & H). cbn [build]. rewrite (IHh _ _ _ _ Hh). apply bind_ext; [reflexivity|]. intros bs.
    destruct H as [(-> & H) | (d & d' & -> & -> & K & H)].
    + destruct v'; try reflexivity. apply bind_ext; [reflexivity|]. intros x. destruct (setting_id t x) as [idv nm]. cbv zeta. destruct (int_key idv) as [z|]; [|reflexivity].
      destruct (find_case _ cs); [|reflexivity]. now rewrite (proj1 (proj2 (proj2 build_agree_mut)) cs _ a b _ H).
    + unfold same_key in K. rewrite <- (dgetr_agree _ _ _ K). unfold dgetr. destruct (dget sid_name d) as [kv|]; [|reflexivity]. cbn [bind].
      destruct (setting_id t kv) as [idv nm]. cbv zeta. fold (raw_of nm d) (raw_of nm d'). destruct H as [(E & H) | (N & H)].
      * rewrite E. destruct (int_key idv) as [z|]; [|reflexivity]. destruct (find_case _ cs); [|reflexivity]. now rewrite (proj1 (proj2 (proj2 build_agree_mut)) cs _ a b _ H).
      * rewrite (to_bytes_nonempty _ _ N). destruct (int_key idv) as [z|]; [|reflexivity]. destruct (find_case _ cs); [|reflexivity]. now rewrite (IH _ _ _ _ _ H).
  - intros t cs IH a b v v' [(-> & H) | (d & d' & -> & -> & K & H)]; cbn [build].
    + destruct v'; try reflexivity. do 5 (apply bind_ext; [reflexivity|]; intros ?). destruct (setting_id t a0) as [idv nm]. cbv zeta.
      destruct (find_case _ cs); [|reflexivity]. now rewrite (proj1 (proj2 (proj2 build_agree_mut)) cs _ a b _ H).
    + unfold geti, dgetr. rewrite <- (K sid_name), <- (K "format"%string), <- (K "length"%string) by (cbn; tauto).
      destruct (dget sid_name d) as [idv|]; [|reflexivity]. cbn [bind]. apply bind_ext; [reflexivity|]. intros fmt. apply bind_ext; [reflexivity|]. intros len.
      unfold as_intr. destruct (as_int idv) as [z|]; [|reflexivity]. cbn [bind]. apply bind_ext; [reflexivity|]. intros bs.
      destruct (setting_id t idv) as [idv' nm]. cbv zeta. fold (raw_of nm d) (raw_of nm d'). destruct H as [(E & H) | (N & H)].
      * rewrite E. destruct (find_case _ cs); [|reflexivity]. now rewrite (proj1 (proj2 (proj2 build_agree_mut)) cs _ a b _ H).
      * rewrite (to_bytes_nonempty _ _ N). destruct (find_case _ cs); [|reflexivity]. now rewrite (IH _ _ _ _ _ H).
  - intros k c IH fs IHf a b d d' H. cbn [build_fields]. unfold dgetr. destruct (dget k d), (dget k d'); try contradiction; [|reflexivity].
    destruct H as (H1 & H2). cbn [bind]. now rewrite (IH _ _ _ _ H1), (IHf _ _ _ _ H2).
  - intros k c IH dv fs IHf a b d d' (H1 & H2). cbn [build_fields]. cbv zeta. now rewrite (IH _ _ _ _ H1), (IHf _ _ _ _ H2).
  - intros k e c IH fs IHf a b d d' (He & Hc & H). cbn [build_fields].
    assert (eval e a = eval e b) as ->.
    { destruct e; try (now apply eval_agree). unfold same_len in He. cbn [eval]. unfold dgetr. destruct (dget k0 a), (dget k0 b); try contradiction; [|reflexivity]. cbn [bind]. now rewrite He. }
    apply bind_ext; [reflexivity|]. intros n. rewrite (build_agree c a b _ Hc), (IHf _ _ _ _ (H n)). reflexivity.
  - intros k n fs IHf a b d d' H. cbn [build_fields]. destruct k; now rewrite (IHf _ _ _ _ H).
  - intros k fs IHf a b d d' (K & H). cbn [build_fields]. unfold same_key in K. rewrite (dgetr_agree _ _ _ K), (IHf _ _ _ _ H). reflexivity.
  - intros n bs IHb fs IHf a b d d' (H1 & H2). cbn [build_fields]. rewrite (IHb _ _ _ _ H1), (IHf _ _ _ _ H2). reflexivity.
  - intros n z c IH cs IHk w a b v v' H. cbn [build_case]. destruct (w =? z); [now apply IH|now apply IHk].
  - intros c IH l IHl a b v v' (H1 & H2). cbn [build_alts]. rewrite (IH _ _ _ _ H1), (IHl _ _ _ _ H2). reflexivity.
Qed.

(** ** The keys a message looks at *)
Fixpoint okeys (fs : fields) : list string :=
  match fs with
  | FNil => []
  | FCons k _ fs' | FDefault k _ _ fs' | FPad (Some k) _ fs' => k :: okeys fs'
  | FRebuild _ _ _ fs' | FPad None _ fs' | FStopIf _ fs' | FBits _ _ fs' => okeys fs'
  end.
Definition without (k : string) (l : list string) : list string := filter (fun x => negb (String.eqb k x)) l.
Fixpoint ckeys (fs : fields) : list string :=
  match fs with
  | FNil => []
  | FCons k c fs' | FDefault k c _ fs' => deps c ++ without k (ckeys fs')
  | FRebuild k e c fs' => edeps e ++ deps c ++ without k (ckeys fs')
  | FPad (Some k) _ fs' => without k (ckeys fs')
  | FPad None _ fs' => ckeys fs'
  | FStopIf k fs' => k :: ckeys fs'
  | FBits _ bs fs' => okeys bs ++ ckeys bs ++ ckeys fs'
  end.
(** lower-cased member names *)
Definition low (t : enum) : list string := map (fun p => lower (fst p)) t.
Fixpoint looks (c : con) : list string :=
  match c with
  | CStruct fs => okeys fs ++ ckeys fs
  | CNamed n c1 => n :: looks c1
  | CSelect l => looks_alts l
  | CBitwise c1 | CBytewise c1 | CReversed _ c1 | CIfDefault _ c1 _ => looks c1
  | CAdapt (ARetransmit _) _ => ["count"; "interval"]%string
  | CAdapt ADate _ => date_keys
  | CAdapt ATime _ => ["date"; "uncertainty"; "tai_utc_delta"; "time_authority"]%string
  | CAdapt ATimestamp _ => ["date"; "tai_utc_delta"]%string
  | CSwitch _ cs => looks_cases cs
  | CSwitchStruct k _ t sw _ => k :: sw :: low t
  | CProp hdr t _ => looks hdr ++ "property_id"%string :: low t
  | CSensorSetting hdr t _ => looks hdr ++ sid_name :: raw_name :: low t
  | CSensorData t _ => sid_name :: raw_name :: "format"%string :: "length"%string :: low t
  | _ => []
  end
with looks_cases (cs : cases) : list string := match cs with KNil => [] | KCons _ _ c cs' => looks c ++ looks_cases cs' end
with looks_alts (l : alts) : list string := match l with ANil => [] | ACons c l' => looks c ++ looks_alts l' end.
(** declarations that take a dict *)
Fixpoint dictlike (c : con) : bool :=
  match c with
  | CStruct _ => true
  | CNamed _ c1 | CBitwise c1 | CBytewise c1 | CReversed _ c1 | CIfDefault _ c1 _ => dictlike c1
  | CSelect l => dictlike_alts l
  | CAdapt (ARetransmit _) _ | CAdapt ADate _ | CAdapt ATime _ | CAdapt ATimestamp _ => true
  | CSwitch _ cs => dictlike_cases cs
  | CSwitchStruct _ kc _ _ cs => match deps kc ++ depsk cs with [] => true | _ => false end
  | CProp hdr t cs | CSensorSetting hdr t cs => dictlike hdr
  | CSensorData _ _ => true
  | _ => false
  end
with dictlike_cases (cs : cases) : bool := match cs with KNil => true | KCons _ _ c cs' => dictlike c && dictlike_cases cs' end
with dictlike_alts (l : alts) : bool := match l with ANil => true | ACons c l' => dictlike c && dictlike_alts l' end.

Lemma in_without k k' l : In k' l -> k' <> k -> In k' (without k l).
Proof. intros H N. unfold without. apply filter_In. split; [exact H|]. apply negb_true_iff. apply String.eqb_neq; congruence. Qed.
Lemma agree_without k l a b v : agree (without k l) a b -> agree l (dset k v a) (dset k v b).
Proof.
  intros H k' Hk. destruct (string_dec k' k) as [->|N]; [now rewrite !dget_dset_eq|].
  rewrite !dget_dset_neq by congruence. apply H. now apply in_without.
Qed.
Lemma agree_sub l m a b : agree m a b -> (forall k, In k l -> In k m) -> agree l a b.
Proof. intros H S k Hk. apply H, S, Hk. Qed.

Lemma same_refl_mut :
  (forall c a b v, agree (deps c) a b -> same c a b v v) /\
  (forall fs a b d d', agree (okeys fs) d d' -> agree (ckeys fs) a b -> same_fields fs a b d d') /\
  (forall cs z a b v, agree (depsk cs) a b -> same_case z cs a b v v) /\
  (forall l a b v, agree (depsa l) a b -> same_alts l a b v v).
Proof.
  apply con_mutind; cbn [same same_fields same_case same_alts deps depsk depsa okeys ckeys]; auto.
  - intros e c IH a b v H. apply agree_app in H as [H1 H2]. auto.
  - intros a c IH a' b v H. split; [now left|exact H].
  - intros k cs IH a b v H. apply agree_cons in H as [H1 H2]. split; [exact H1|]. destruct (dget k a); [|exact I]. destruct (int_key v0); auto.
  - intros k cs IH a b v H. apply agree_cons in H as [H1 H2]. split; [exact H1|]. destruct (dget k a); [|exact I]. destruct (int_key v0); [|exact I].
    destruct (find_case z cs) as [[n c]|]; auto.
  - intros k c IH d a b v H. apply agree_cons in H as [H1 H2]. split; [exact H1|]. destruct (dget k a); [|exact I]. destruct (truthy v0); auto.
  - intros h IHh t cs IH a b v H. apply agree_app in H as [H1 H2]. auto.
  - intros h IHh t cs IH a b v H. apply agree_app in H as [H1 H2]. auto.
  - intros k c IH fs IHf a b d d' Ho Hc. apply agree_cons in Ho as [Ho1 Ho2]. apply agree_app in Hc as [Hc1 Hc2]. rewrite <- Ho1.
    destruct (dget k d) as [x|]; [|exact I]. split; [now apply IH|]. apply IHf; [exact Ho2|]. now apply agree_without.
  - intros k c IH dv fs IHf a b d d' Ho Hc. apply agree_cons in Ho as [Ho1 Ho2]. apply agree_app in Hc as [Hc1 Hc2].
    unfold dgetn. rewrite <- Ho1. cbv zeta. split; [now apply IH|]. apply IHf; [exact Ho2|]. now apply agree_without.
  - intros k e c IH fs IHf a b d d' Ho Hc. apply agree_app in Hc as [Hc1 Hc2]. apply agree_app in Hc2 as [Hc2 Hc3]. split; [|split; [exact Hc2|]].
    + destruct e; try exact Hc1. cbn [edeps] in Hc1. apply agree_cons in Hc1 as [E _]. unfold same_len. rewrite E. now destruct (dget k0 b).
    + intros n. apply IHf; [exact Ho|]. now apply agree_without.
  - intros k n fs IHf a b d d' Ho Hc. destruct k as [k|]; [|now apply IHf]. apply agree_cons in Ho as [Ho1 Ho2]. unfold dgetn. rewrite <- Ho1.
    apply IHf; [exact Ho2|]. now apply agree_without.
  - intros k fs IHf a b d d' Ho Hc. apply agree_cons in Hc as [Hc1 Hc2]. split; [exact Hc1|]. now apply IHf.
  - intros n bs IHb fs IHf a b d d' Ho Hc. apply agree_app in Hc as [Hc1 Hc2]. apply agree_app in Hc2 as [Hc2 Hc3]. split; [now apply IHb|now apply IHf].
  - intros n z c IH cs IHk w a b v H. apply agree_app in H as [H1 H2]. destruct (w =? z); auto.
  - intros c IH l IHl a b v H. apply agree_app in H as [H1 H2]. split; auto.
Qed.
Lemma same_refl c a b v : agree (deps c) a b -> same c a b v v.
Proof. apply (proj1 same_refl_mut). Qed.

Lemma in_low t n z : by_value t z = Some (VEnum n z) -> In (lower n) (low t).
Proof. intros H. apply by_value_member in H. destruct H as (t1 & t2 & -> & _). unfold low. apply in_map_iff. exists (n, z). split; [reflexivity|]. apply in_or_app. right. now left. Qed.
Lemma by_value_low t z n w : by_value t z = Some (VEnum n w) -> In (lower n) (low t).
Proof.
  induction t as [|[n1 z1] t IH]; cbn [by_value low map fst]; [discriminate|].
  destruct (z =? z1); [intros H; injection H as <- <-; now left|]. intros H. right. now apply IH.
Qed.
Lemma setting_id_low t v i n : setting_id t v = (i, n) -> In n (raw_name :: low t).
Proof.
  unfold setting_id. destruct (int_key v) as [z|]; [|intros H; injection H as _ <-; now left].
  destruct (by_value t z) as [[]|] eqn:E; intros H; injection H as _ <-; try (now left). right. exact (by_value_low _ _ _ _ E).
Qed.
Lemma looks_same_mut :
  (forall c a b d d', dictlike c = true -> agree (looks c) d d' -> agree (deps c) a b -> same c a b (VDict d) (VDict d')) /\
  (forall fs : fields, True) /\
  (forall cs z a b d d', dictlike_cases cs = true -> agree (looks_cases cs) d d' -> agree (depsk cs) a b -> same_case z cs a b (VDict d) (VDict d')) /\
  (forall l a b d d', dictlike_alts l = true -> agree (looks_alts l) d d' -> agree (depsa l) a b -> same_alts l a b (VDict d) (VDict d')).
Proof.
  apply con_mutind; cbn [dictlike dictlike_cases dictlike_alts looks looks_cases looks_alts deps depsk depsa same same_case same_alts]; auto; try (intros; discriminate).
  - intros fs _ a b d d' _ H _. right. exists d, d'. apply agree_app in H as [H1 H2]. split; [reflexivity|]. split; [reflexivity|]. now apply (proj1 (proj2 same_refl_mut)).
  - intros ad c IH a b d d' D H Hd. split; [|exact Hd]. right. exists d, d'. split; [reflexivity|]. split; [reflexivity|].
    destruct ad; try discriminate D; try exact H.
    + apply agree_cons in H as [H1 H2]. split; [exact H2|]. unfold same_date. rewrite H1. destruct (dget "date" d'); [now left|exact I].
    + apply agree_cons in H as [H1 H2]. split; [exact H2|]. unfold same_date. rewrite H1. destruct (dget "date" d'); [now left|exact I].
  - intros n c IH a b d d' D H Hd. apply agree_cons in H as [H1 H2]. right. exists d, d'. split; [reflexivity|]. split; [reflexivity|]. rewrite H1.
    destruct (dget n d') as [x|]; [now apply same_refl|now apply IH].
  - intros k cs IH a b d d' D H Hd. apply agree_cons in Hd as [H1 H2]. split; [exact H1|]. destruct (dget k a); [|exact I]. destruct (int_key v); [|exact I]. now apply IH.
  - intros k c IH dv a b d d' D H Hd. apply agree_cons in Hd as [H1 H2]. split; [exact H1|]. destruct (dget k a); [|exact I]. destruct (truthy v); [|exact I]. now apply IH.
  - intros k kc IHk t sw cs IH a b d d' D H _. apply agree_cons in H as [H1 H]. apply agree_cons in H as [H2 H]. right. exists d, d'. split; [reflexivity|]. split; [reflexivity|]. split; [exact H1|].
    destruct (dget k d) as [kv|]; [|exact I]. destruct (int_key kv) as [z|]; [|exact I]. destruct (by_value t z) as [[]|] eqn:E; try exact I.
    rewrite <- (H (lower name)) by exact (by_value_low _ _ _ _ E). rewrite <- H2.
    assert (deps kc = [] /\ depsk cs = []) as [D1 D2] by (destruct (deps kc); [cbn in D; destruct (depsk cs); [auto|discriminate]|discriminate]).
    destruct (match dget (lower name) d with Some x => Some x | None => dget sw d end) as [x|]; [|exact I]. rewrite D1. split; [apply agree_nil|].
    apply (proj1 (proj2 (proj2 same_refl_mut))). rewrite D2. apply agree_nil.
  - intros hdr IHh t cs IH a b d d' D H Hd. apply agree_app in H as [H1 H2]. apply agree_cons in H2 as [H2 H3]. apply agree_app in Hd as [Hd1 Hd2].
    split; [now apply IHh|]. right. exists d, d'. split; [reflexivity|]. split; [reflexivity|]. split; [exact H2|].
    destruct (dget "property_id" d) as [kv|]; [|exact I]. destruct (int_key kv) as [z|]; [|exact I]. destruct (by_value t z) as [[]|] eqn:E; try exact I.
    unfold dgetn. rewrite <- (H3 (lower name)) by exact (by_value_low _ _ _ _ E). now apply (proj1 (proj2 (proj2 same_refl_mut))).
  - intros hdr IHh t cs IH a b d d' D H Hd. apply agree_app in H as [H1 H2]. apply agree_cons in H2 as [H2 H3]. apply agree_app in Hd as [Hd1 Hd2].
    split; [now apply IHh|]. right. exists d, d'. split; [reflexivity|]. split; [reflexivity|]. split; [exact H2|].
    destruct (dget sid_name d) as [kv|]; [|exact I]. destruct (setting_id t kv) as [idv nm] eqn:E. left. split; [|exact Hd2].
    unfold raw_of, dgetn. rewrite (H3 nm) by exact (setting_id_low _ _ _ _ E). rewrite (H3 raw_name) by (now left). reflexivity.
  - intros t cs IH a b d d' D H Hd. right. exists d, d'. split; [reflexivity|]. split; [reflexivity|]. apply agree_cons in H as [H1 H]. pose proof H as H3.
    apply agree_cons in H as [H2 H]. apply agree_cons in H as [H4 H]. apply agree_cons in H as [H5 H]. split.
    { intros k [<- | [<- | [<- | []]]]; assumption. }
    destruct (dget sid_name d) as [kv|]; [|exact I]. destruct (setting_id t kv) as [idv nm] eqn:E. left. split; [|exact Hd].
    unfold raw_of, dgetn. rewrite H2. apply setting_id_low in E as [<- | E]; [now rewrite H2|]. now rewrite (H nm E).
  - intros n z c IH cs IHk w a b d d' D H Hd. apply andb_prop in D as [D1 D2]. apply agree_app in H as [H1 H2]. apply agree_app in Hd as [Hd1 Hd2]. destruct (w =? z); auto.
  - intros c IH l IHl a b d d' D H Hd. apply andb_prop in D as [D1 D2]. apply agree_app in H as [H1 H2]. apply agree_app in Hd as [Hd1 Hd2]. auto.
Qed.

(** every message of the access layer takes a dict, except two whose parameters are a list *)
Definition list_messages : list string := ["SENSOR_STATUS"; "SENSOR_DESCRIPTOR_STATUS"]%string.
Lemma params_dictlike : forallb (fun p => match p with (n, z, c) => (dictlike c || existsb (String.eqb n) list_messages) && match deps c with [] => true | _ => false end end) params = true.
Proof. vm_compute. reflexivity. Qed.
Lemma params_dict n z c : In (n, z, c) params -> ~ In n list_messages -> dictlike c = true /\ deps c = [].
Proof.
  pose proof params_dictlike as R. rewrite forallb_forall in R. intros H N. apply R in H. apply andb_prop in H as [H1 H2]. split; [|now destruct (deps c)].
  apply orb_prop in H1 as [H1|H1]; [exact H1|]. exfalso. apply N. apply existsb_exists in H1 as (m & Hm & E). apply String.eqb_eq in E. now subst.
Qed.

(** ** C09 *)
(** Arguments that hold the same thing wherever the declaration looks are built to the
    same bytes, or both rejected with the same kind of error. *)
Theorem C09_same_argument : forall c v v', same c [] [] v v' -> build_msg c v = build_msg c v'.
Proof. intros c v v' H. exact (proj1 same_build_mut _ _ _ _ _ H). Qed.
(** Only the keys listed by [looks] matter to a message. *)
Theorem C09_only_mentioned_keys : forall n z c d d', In (n, z, c) params -> ~ In n list_messages ->
  (forall k, In k (looks c) -> dget k d = dget k d') -> build_msg c (VDict d) = build_msg c (VDict d').
Proof.
  intros n z c d d' Hin Hl H. destruct (params_dict _ _ _ Hin Hl) as (D & Hd). apply C09_same_argument. apply (proj1 looks_same_mut); [exact D|exact H|]. rewrite Hd. apply agree_nil.
Qed.
(** A key the message does not mention can be added anywhere, with any value. *)
Theorem C09_unknown_key : forall n z c d1 d2 k x, In (n, z, c) params -> ~ In n list_messages -> ~ In k (looks c) ->
  build_msg c (VDict (d1 ++ (k, x) :: d2)) = build_msg c (VDict (d1 ++ d2)).
Proof.
  intros n z c d1 d2 k x Hin Hl Hk. apply (C09_only_mentioned_keys n z c); [exact Hin|exact Hl|]. intros k' Hk'.
  assert (k' <> k) by congruence. clear - H. induction d1 as [|[k1 x1] d1 IH]; cbn [app dget].
  - destruct (String.eqb_spec k' k); [congruence|reflexivity].
  - now rewrite IH.
Qed.
(** The order of the keys does not matter. *)
Lemma dget_in d k v : NoDup (map fst d) -> In (k, v) d -> dget k d = Some v.
Proof.
  induction d as [|[k1 x1] d IH]; intros N H; [destruct H|]. cbn [map fst] in N. apply NoDup_cons_iff in N as [N1 N2]. cbn [dget].
  destruct H as [H|H]; [injection H as -> ->; now rewrite String.eqb_refl|].
  destruct (String.eqb_spec k k1) as [->|_]; [|now apply IH]. exfalso. apply N1. apply in_map_iff. exists (k1, v). auto.
Qed.
Lemma dget_some d k v : dget k d = Some v -> In (k, v) d.
Proof. induction d as [|[k1 x1] d IH]; cbn [dget]; [discriminate|]. destruct (String.eqb_spec k k1) as [->|_]; [intros H; injection H as ->; now left|]. intros H. right. now apply IH. Qed.
Lemma dget_perm d d' : Permutation d d' -> NoDup (map fst d) -> forall k, dget k d = dget k d'.
Proof.
  intros P N k. assert (N' : NoDup (map fst d')) by (eapply Permutation_NoDup; [|exact N]; now apply Permutation_map).
  destruct (dget k d) as [x|] eqn:E.
  - symmetry. apply dget_in; [exact N'|]. eapply Permutation_in; [exact P|]. now apply dget_some.
  - destruct (dget k d') as [x|] eqn:E'; [|reflexivity]. apply dget_some in E'. apply (Permutation_in _ (Permutation_sym P)) in E'.
    rewrite (dget_in _ _ _ N E') in E. discriminate.
Qed.
Theorem C09_key_order : forall n z c d d', In (n, z, c) params -> ~ In n list_messages -> Permutation d d' -> NoDup (map fst d) ->
  build_msg c (VDict d) = build_msg c (VDict d').
Proof. intros n z c d d' Hin Hl P N. apply (C09_only_mentioned_keys n z c); [exact Hin|exact Hl|]. intros k _. now apply dget_perm. Qed.
(** AccessMessage: only the opcode and the parameters of that message are looked at, in any
    order, and the parameters only as the declaration of the message looks at them. *)
Theorem C09_access_message : forall n z c o m m' op op' x x', In (n, z, c) params -> opcode_bytes z o ->
  dget "opcode" m = Some op -> as_int op = Some z -> dget "opcode" m' = Some op' -> as_int op' = Some z ->
  dget (lower n) m = Some x -> dget (lower n) m' = Some x' -> same c [] [] x x' -> access_build (VDict m) = access_build (VDict m').
Proof.
  intros n z c o m m' op op' x x' Hin Ho H1 H2 H3 H4 H5 H6 S.
  rewrite (C49_message_build _ _ _ _ _ _ _ Hin Ho H1 H2 H5), (C49_message_build _ _ _ _ _ _ _ Hin Ho H3 H4 H6), (C09_same_argument _ _ _ S). reflexivity.
Qed.
Print Assumptions C09_same_argument.
Print Assumptions C09_only_mentioned_keys.
Print Assumptions C09_unknown_key.
Print Assumptions C09_key_order.
Print Assumptions C09_access_message.
Local Open Scope string_scope.
(** *** Two places where order or extra keys do matter *)
(** the number of extended model items is taken from the first entry of the dict, whatever its name *)
Theorem C09_extended_items_first_entry_refuted :
  let item l := VDict [("format", VInt 0); ("corresponding_present", VInt 0); ("corresponding_id", VInt 0); ("extended_models_items", VDict l)] in
  let a := ("short", VList [VDict [("element_offset", VInt 1); ("model_item_index", VInt 1)]]) in let b := ("unknown", VList []) in
  (exists s, build_msg config_ModelRelationItem (item [a; b]) = Ok s) /\ (exists e, build_msg config_ModelRelationItem (item [b; a]) = Err e).
Proof. vm_compute. eauto. Qed.
(** an empty dict for a known property is sent as nothing; with an unknown key it is rejected *)
Theorem C09_empty_sensor_setting_refuted :
  let set x := VDict [("sensor_property_id", VInt 0x4F); ("sensor_setting_property_id", VInt 0x4F); ("present_ambient_temperature", VDict x)] in
  (exists s, build_msg sensor_SensorSettingSet (set []) = Ok s) /\ (exists e, build_msg sensor_SensorSettingSet (set [("unknown", VInt 1)]) = Err e).
Proof. vm_compute. eauto. Qed.
(** *** A message with nested dicts, keys in two orders, an unknown key inside and a wrong count *)
Definition ex_page0 (els : list val) : val :=
  VDict [("cid", VInt 1); ("pid", VInt 2); ("vid", VInt 3); ("crpl", VInt 4); ("features", VInt 5); ("elements", VList els)].
Example C09_ex_nested : same config_CompositionDataPage0 [] []
  (ex_page0 [VDict [("location", VInt 0x100); ("sig_models", VList [VDict [("model_id", VInt 7)]]); ("vendor_models", VList [])]])
  (ex_page0 [VDict [("vendor_models", VList []); ("sig_number", VInt 99); ("note", VStr []); ("sig_models", VList [VDict [("x", VNone); ("model_id", VInt 7)]]); ("location", VInt 0x100)]]).
Proof.
  right. eexists. eexists. split; [reflexivity|]. split; [reflexivity|]. cbn -[same dget dset]. repeat (apply conj; [reflexivity|] || (cbn [dget String.eqb Ascii.eqb Bool.eqb]; split; [apply same_refl, agree_nil|])).
  cbn [dget String.eqb Ascii.eqb Bool.eqb]. split; [|exact I]. right. eexists. eexists. split; [reflexivity|]. split; [reflexivity|]. constructor; [|constructor].
  right. eexists. eexists. split; [reflexivity|]. split; [reflexivity|]. cbn -[same]. split; [apply same_refl, agree_nil|]. split; [reflexivity|]. split; [apply agree_nil|]. intros n1.
  split; [reflexivity|]. split; [apply agree_nil|]. intros n2. split; [|split; [|exact I]].
  - split; [intros k [<-|[]]; reflexivity|]. right. eexists. eexists. split; [reflexivity|]. split; [reflexivity|]. constructor; [|constructor].
    right. eexists. eexists. split; [reflexivity|]. split; [reflexivity|]. cbn. split; [reflexivity|exact I].
  - split; [intros k [<-|[]]; reflexivity|]. left. split; [reflexivity|apply agree_nil].
Qed.

(** ** C38: counts *)
(** the structures that carry counts, and the names of the counts *)
Definition counted : list (con * list string) :=
  [(config_CompositionDataPage0Element, ["sig_number"; "vendor_number"]);
   (config_CompositionDataPage1Element, ["number_s"; "number_v"]);
   (config_ModelRelationItem, ["extended_items_count"]);
   (config_MeshProfileEntry, ["num_element_offsets"; "additional_data_len"])].
(** The counts the caller passes (or not) are not looked at. *)
Lemma counted_ok : forallb (fun p => match p with (c, ks) => dictlike c && match deps c with [] => true | _ => false end &&
  forallb (fun k => negb (existsb (String.eqb k) (looks c))) ks end) counted = true.
Proof. vm_compute. reflexivity. Qed.
Theorem C38_passed_count_ignored : forall c ks d d', In (c, ks) counted ->
  (forall k, ~ In k ks -> dget k d = dget k d') -> build_msg c (VDict d) = build_msg c (VDict d').
Proof.
  intros c ks d d' Hin H. pose proof counted_ok as R. rewrite forallb_forall in R. apply R in Hin. clear R. apply andb_prop in Hin as [Hin K]. apply andb_prop in Hin as [D Hd].
  apply C09_same_argument. apply (proj1 looks_same_mut); [exact D| |].
  - intros k Hk. apply H. intros Hks. rewrite forallb_forall in K. apply K in Hks. apply negb_true_iff in Hks.
    assert (existsb (String.eqb k) (looks c) = true) by (apply existsb_exists; exists k; split; [exact Hk|apply String.eqb_refl]). congruence.
  - destruct (deps c); [apply agree_nil|discriminate].
Qed.
Print Assumptions C38_passed_count_ignored.
(** Every count in the library is one of these. *)
Fixpoint rebuilds (c : con) : list string :=
  match c with
  | CAdapt _ c1 | CPrefixedArray c1 | CArray _ c1 | CGreedyRange c1 | CBitwise c1 | CBytewise c1 | CReversed _ c1
  | CNamed _ c1 | CIfDefault _ c1 _ => rebuilds c1
  | CStruct fs => rebuilds_fields fs
  | CSelect l => rebuilds_alts l
  | CSwitch _ cs | CEnumSwitchStruct _ cs | CSensorData _ cs => rebuilds_cases cs
  | CSwitchStruct _ kc _ _ cs => rebuilds kc ++ rebuilds_cases cs
  | CProp h _ cs | CSensorSetting h _ cs => rebuilds h ++ rebuilds_cases cs
  | _ => []
  end
with rebuilds_fields (fs : fields) : list string :=
  match fs with
  | FNil => []
  | FCons _ c fs' | FDefault _ c _ fs' => rebuilds c ++ rebuilds_fields fs'
  | FRebuild k _ c fs' => k :: rebuilds c ++ rebuilds_fields fs'
  | FPad _ _ fs' | FStopIf _ fs' => rebuilds_fields fs'
  | FBits _ bs fs' => rebuilds_fields bs ++ rebuilds_fields fs'
  end
with rebuilds_cases (cs : cases) : list string :=
  match cs with KNil => [] | KCons _ _ c cs' => rebuilds c ++ rebuilds_cases cs' end
with rebuilds_alts (l : alts) : list string :=
  match l with ANil => [] | ACons c l' => rebuilds c ++ rebuilds_alts l' end.
Theorem C38_coverage : forall n z c k, In (n, z, c) params -> In k (rebuilds c) -> exists c' ks, In (c', ks) counted /\ In k ks.
Proof.
  assert (R : forallb (fun p => match p with (n, z, c) => forallb (fun k => existsb (fun q => existsb (String.eqb k) (snd q)) counted) (rebuilds c) end) params = true) by (vm_compute; reflexivity).
  rewrite forallb_forall in R. intros n z c k H Hk. apply R in H. rewrite forallb_forall in H. apply H in Hk. apply existsb_exists in Hk as ([c' ks] & Hin & E).
  apply existsb_exists in E as (k' & Hk' & E). apply String.eqb_eq in E. subst k'. eauto.
Qed.
Print Assumptions C38_coverage.

(** [items v n]: v is a collection of n items *)
Definition items (v : val) (n : nat) : Prop := exists l, iter v = Some l /\ length l = n.
Lemma vlen_items v z : vlen v = Some z -> exists n, items v n /\ z = Z.of_nat n.
Proof. unfold items. destruct v; cbn [vlen iter]; intros H; try discriminate; injection H as <-; eexists; (split; [eexists; split; [reflexivity|]|]); rewrite ?map_length; reflexivity. Qed.
Lemma elen_ok k ctx z : eval (ELen k) ctx = Ok z -> exists v n, dget k ctx = Some v /\ items v n /\ z = Z.of_nat n.
Proof.
  cbn [eval]. unfold dgetr. destruct (dget k ctx) as [v|]; [|discriminate]. cbn [bind]. destruct (vlen v) as [m|] eqn:E; [|discriminate]. intros H. injection H as <-.
  apply vlen_items in E as (n & I & ->). eauto.
Qed.
Lemma intn_ok n ctx z s : build (CInt n false) ctx (VInt z) = Ok s -> 0 <= z < 2 ^ (8 * Z.of_nat n) /\ s = to_le n z.
Proof.
  cbn [build as_intr as_int bind]. destruct (Z.leb_spec (int_min n false) z); [|discriminate]. destruct (Z.leb_spec z (int_max n false)); [|discriminate].
  cbn [andb]. intros E. injection E as <-. unfold int_min, int_max in *. split; [|reflexivity]. lia.
Qed.
Lemma int8_ok ctx z s : build Int8ul ctx (VInt z) = Ok s -> 0 <= z <= 255 /\ s = [z].
Proof. intros H. apply intn_ok in H as (R & ->). change (2 ^ (8 * Z.of_nat 1)) with 256 in R. split; [lia|]. cbn [to_le]. now rewrite Z.mod_small by lia. Qed.
Lemma array_len e c ctx v s m : build (CArray e c) ctx v = Ok s -> fsz c = Some m -> forall n, items v n -> length s = (n * m)%nat.
Proof.
  intros H F n (l & E & L). cbn [build] in H. apply bind_ok in H as (k & _ & H). rewrite E in H. destruct ((0 <=? k)%Z && _); [|discriminate]. subst n. clear E.
  revert s H. induction l as [|x l IH]; cbn [build_list]; intros s H; [now injection H as <-|]. apply bind_ok in H as (a & Ha & H). apply bind_ok in H as (b & Hb & H). injection H as <-.
  rewrite app_length, (build_len _ _ _ _ _ F Ha), (IH _ Hb). reflexivity.
Qed.
Lemma dgetr_ok k d v : dgetr k d = Ok v -> dget k d = Some v.
Proof. unfold dgetr. destruct (dget k d); [intros H; now injection H as ->|discriminate]. Qed.

Theorem C38_page0_element : forall d s, build_msg config_CompositionDataPage0Element (VDict d) = Ok s ->
  exists vs vv ns nv loc sig ven, dget "sig_models" d = Some vs /\ items vs ns /\ dget "vendor_models" d = Some vv /\ items vv nv /\
    (ns <= 255)%nat /\ (nv <= 255)%nat /\
    s = (loc ++ [Z.of_nat ns; Z.of_nat nv] ++ sig ++ ven)%list /\ length loc = 2%nat /\ length sig = (2 * ns)%nat /\ length ven = (4 * nv)%nat.
Proof.
  intros d s H. unfold build_msg, config_CompositionDataPage0Element in H. cbn [build as_dict bind build_fields] in H.
  apply bind_ok in H as (loc & El & H). apply bind_ok in H as (bl & Bl & H). apply bind_ok in H as (b1 & H & E1). injection E1 as <-.
  apply bind_ok in H as (z1 & Z1 & H). apply bind_ok in H as (c1 & C1 & H). apply bind_ok in H as (b2 & H & E1). injection E1 as <-.
  apply bind_ok in H as (z2 & Z2 & H). apply bind_ok in H as (c2 & C2 & H). apply bind_ok in H as (b3 & H & E1). injection E1 as <-.
  apply bind_ok in H as (vs & Vs & H). apply bind_ok in H as (sg & Sg & H). apply bind_ok in H as (b4 & H & E1). injection E1 as <-.
  apply bind_ok in H as (vv & Vv & H). apply bind_ok in H as (vn & Vn & H). injection H as <-.
  apply dgetr_ok in Vs, Vv. apply elen_ok in Z1 as (u1 & n1 & U1 & I1 & ->), Z2 as (u2 & n2 & U2 & I2 & ->).
  rewrite !dget_dset_neq in U1 by discriminate. rewrite !dget_dset_neq in U2 by discriminate. rewrite Vs in U1. rewrite Vv in U2. injection U1 as <-. injection U2 as <-.
  apply (int8_ok []) in C1 as (R1 & ->), C2 as (R2 & ->). exists vs, vv, n1, n2, bl, sg, vn. repeat (split; [assumption || lia|]). rewrite app_nil_r.
  split; [reflexivity|]. split; [exact (build_len config_GATTNamespaceDescriptorAdapter d _ _ 2 eq_refl Bl)|]. pose proof (array_len (EGet "sig_number") config_SIGModelId _ _ _ 2 Sg eq_refl _ I1). pose proof (array_len (EGet "vendor_number") config_VendorModelId _ _ _ 4 Vn eq_refl _ I2). lia.
Qed.
Theorem C38_page1_element : forall d s, build_msg config_CompositionDataPage1Element (VDict d) = Ok s ->
  exists vs vv ns nv sig ven, dget "sig_models" d = Some vs /\ items vs ns /\ dget "vendor_models" d = Some vv /\ items vv nv /\
    (ns <= 255)%nat /\ (nv <= 255)%nat /\ s = ([Z.of_nat ns; Z.of_nat nv] ++ sig ++ ven)%list /\
    (exists l, iter vs = Some l /\ build_list (build_msg config_ModelRelationItem) l = Ok sig) /\
    (exists l, iter vv = Some l /\ build_list (build_msg config_ModelRelationItem) l = Ok ven).
Proof.
  intros d s H. unfold build_msg, config_CompositionDataPage1Element in H. cbn [build as_dict bind build_fields] in H.
  apply bind_ok in H as (z1 & Z1 & H). apply bind_ok in H as (c1 & C1 & H). apply bind_ok in H as (b2 & H & E1). injection E1 as <-.
  apply bind_ok in H as (z2 & Z2 & H). apply bind_ok in H as (c2 & C2 & H). apply bind_ok in H as (b3 & H & E1). injection E1 as <-.
  apply bind_ok in H as (vs & Vs & H). apply bind_ok in H as (sg & Sg & H). apply bind_ok in H as (b4 & H & E1). injection E1 as <-.
  apply bind_ok in H as (vv & Vv & H). apply bind_ok in H as (vn & Vn & H). injection H as <-.
  apply dgetr_ok in Vs, Vv. apply elen_ok in Z1 as (u1 & n1 & U1 & I1 & ->), Z2 as (u2 & n2 & U2 & I2 & ->).
  rewrite ?dget_dset_neq in U1 by discriminate. rewrite !dget_dset_neq in U2 by discriminate. rewrite Vs in U1. rewrite Vv in U2. injection U1 as <-. injection U2 as <-.
  apply (int8_ok []) in C1 as (R1 & ->), C2 as (R2 & ->). exists vs, vv, n1, n2, sg, vn. repeat (split; [assumption || lia|]). rewrite app_nil_r.
  split; [reflexivity|].
  assert (X : forall ctx v e b, build (CArray e config_ModelRelationItem) ctx v = Ok b -> exists l, iter v = Some l /\ build_list (build_msg config_ModelRelationItem) l = Ok b).
  { intros ctx v e b B. cbn [build] in B. apply bind_ok in B as (k & _ & B). destruct (iter v) as [l|]; [|discriminate]. destruct ((0 <=? k)%Z && _); [|discriminate]. exists l. split; [reflexivity|].
    rewrite <- B. apply build_list_ext. intros x. unfold build_msg. apply build_agree. apply agree_nil. }
  split; eapply X; eassumption.
Qed.
Theorem C38_mesh_profile_entry : forall d s, build_msg config_MeshProfileEntry (VDict d) = Ok s ->
  exists vo vd no nd hdr offs dat, dget "element_offset_list" d = Some vo /\ items vo no /\ dget "additional_data" d = Some vd /\ items vd nd /\
    (no <= 255)%nat /\ Z.of_nat nd <= 65535 /\
    s = (hdr ++ [Z.of_nat no] ++ offs ++ [Z.of_nat nd mod 256; Z.of_nat nd / 256] ++ dat)%list /\ length hdr = 5%nat /\ length offs = no /\ length dat = nd.
Proof.
  intros d s H. unfold build_msg, config_MeshProfileEntry in H. cbn [build as_dict bind build_fields] in H.
  apply bind_ok in H as (w1 & W1 & H). apply bind_ok in H as (h1 & B1 & H). apply bind_ok in H as (b1 & H & E1). injection E1 as <-.
  apply bind_ok in H as (w2 & W2 & H). apply bind_ok in H as (h2 & B2 & H). apply bind_ok in H as (b2 & H & E1). injection E1 as <-.
  apply bind_ok in H as (z1 & Z1 & H). apply bind_ok in H as (c1 & C1 & H). apply bind_ok in H as (b3 & H & E1). injection E1 as <-.
  apply bind_ok in H as (vs & Vs & H). apply bind_ok in H as (sg & Sg & H). apply bind_ok in H as (b4 & H & E1). injection E1 as <-.
  apply bind_ok in H as (z2 & Z2 & H). apply bind_ok in H as (c2 & C2 & H). apply bind_ok in H as (b5 & H & E1). injection E1 as <-.
  apply bind_ok in H as (vv & Vv & H). apply bind_ok in H as (vn & Vn & H). injection H as <-.
  apply dgetr_ok in Vs, Vv. apply elen_ok in Z1 as (u1 & n1 & U1 & I1 & ->), Z2 as (u2 & n2 & U2 & I2 & ->).
  rewrite ?dget_dset_neq in U1 by discriminate. rewrite !dget_dset_neq in U2 by discriminate. rewrite Vs in U1. rewrite Vv in U2. injection U1 as <-. injection U2 as <-.
  apply (int8_ok []) in C1 as (R1 & ->).
  assert (0 <= Z.of_nat n2 <= 65535 /\ c2 = [Z.of_nat n2 mod 256; Z.of_nat n2 / 256]) as (R2 & ->).
  { apply (intn_ok 2 []) in C2 as (R & ->). change (2 ^ (8 * Z.of_nat 2)) with 65536 in R. split; [lia|]. cbn [to_le]. rewrite (Z.mod_small (Z.of_nat n2 / 256)); [reflexivity|]. split; [apply Z.div_pos; lia|apply Z.div_lt_upper_bound; lia]. }
  assert (L1 : length h1 = 2%nat) by exact (build_len Int16ul [] _ _ 2 eq_refl B1).
  assert (L2 : length h2 = 3%nat) by exact (build_len config_Version [] _ _ 3 eq_refl B2).
  pose proof (array_len (EGet "num_element_offsets") Int8ul _ _ _ 1 Sg eq_refl _ I1) as L3. pose proof (array_len (EGet "additional_data_len") Int8ul _ _ _ 1 Vn eq_refl _ I2) as L4.
  exists vs, vv, n1, n2, (h1 ++ h2)%list, sg, vn. repeat (split; [assumption || lia|]). rewrite app_nil_r.
  split; [rewrite <- app_assoc; reflexivity|]. split; [rewrite app_length; lia|]. lia.
Qed.
(** Page 1 relation items: the count is the low six bits of the number of items. *)
Lemma bits1 z : exists b, to_bits 1 z = [b] /\ (b = 0 \/ b = 1).
Proof. exists (z mod 2). split; [reflexivity|]. pose proof (Z.mod_pos_bound z 2 eq_refl). lia. Qed.
Lemma bits_ok n ctx v s : build (CBits n false) ctx v = Ok s -> exists z, as_int v = Some z /\ 0 <= z /\ s = to_bits n z.
Proof.
  cbn [build]. unfold as_intr. destruct (as_int v) as [z|]; [|discriminate]. cbn [bind]. destruct (Z.ltb_spec z 0); [discriminate|]. cbn [andb]. intros H'. injection H' as <-. eauto.
Qed.
Lemma head_count z f p r s : bits2bytes (to_bits 6 z ++ to_bits 1 f ++ to_bits 1 p ++ r) = (s, []) -> exists b t, s = b :: t /\ b / 4 = z mod 64.
Proof.
  destruct (bits1 f) as (x & -> & Hx). destruct (bits1 p) as (y & -> & Hy). intros H.
  replace (to_bits 6 z ++ [x] ++ [y] ++ r)%list with ((to_bits 6 z ++ [x; y]) ++ r)%list in H by (rewrite <- app_assoc; reflexivity).
  rewrite bits2bytes_app8 in H by (rewrite app_length, to_bits_length; reflexivity). apply (f_equal fst) in H. cbn [fst] in H. exists (of_bits (to_bits 6 z ++ [x; y])), (fst (bits2bytes r)). split; [symmetry; exact H|]. clear H. unfold of_bits. rewrite (rev_app_distr (to_bits 6 z) [x; y]). change (rev [x; y]) with [y; x]. cbn [app of_lsb].
  change (of_lsb (rev (to_bits 6 z))) with (of_bits (to_bits 6 z)). rewrite of_to_bits. change (2 ^ Z.of_nat 6) with 64.
  symmetry. apply (Z.div_unique _ 4 _ (y + 2 * x)); lia.
Qed.
Theorem C38_relation_item : forall d s, build_msg config_ModelRelationItem (VDict d) = Ok s ->
  exists e k x e' n b r, dget "extended_models_items" d = Some (VDict e) /\ e = (k, x) :: e' /\ items x n /\
    s = b :: r /\ b / 4 = Z.of_nat n mod 64.
Proof.
  intros d s H. unfold build_msg, config_ModelRelationItem in H. cbn [build as_dict bind build_fields] in H.
  apply bind_ok in H as (bs & H & E). destruct (bits2bytes bs) as [s' lo] eqn:B. destruct lo; [|discriminate]. injection E as ->.
  apply bind_ok in H as (z1 & Z1 & H). apply bind_ok in H as (c1 & C1 & H). apply bind_ok in H as (b2 & H & E1). injection E1 as <-.
  apply bind_ok in H as (vf & Vf & H). apply bind_ok in H as (c2 & C2 & H). apply bind_ok in H as (b3 & H & E1). injection E1 as <-.
  apply bind_ok in H as (vp & Vp & H). apply bind_ok in H as (c3 & C3 & H). apply bind_ok in H as (b4 & H & E1). injection E1 as <-.
  clear H. apply bind_ok in C2 as (w & _ & C2). apply (bits_ok 1 []) in C2 as (f & _ & _ & ->). apply (bits_ok 1 []) in C3 as (p & _ & _ & ->).
  apply (bits_ok 6 [] (VInt z1)) in C1 as (z & Ez & _ & ->). injection Ez as <-. apply head_count in B as (b & t & -> & Hb).
  cbn [eval] in Z1. unfold dgetr in Z1. destruct (dget "extended_models_items" d) as [[]|] eqn:D; try discriminate Z1. cbn [bind] in Z1.
  destruct d0 as [|[k x] e']; [discriminate|]. destruct (vlen x) as [m|] eqn:V; [|discriminate]. injection Z1 as <-. apply vlen_items in V as (n & I & ->).
  exists ((k, x) :: e'), k, x, e', n, b, t. auto.
Qed.
(** FALSE for 64 items or more: they are all sent, announced by a count taken modulo 64. *)
Theorem C38_relation_item_64_refuted :
  let it := VDict [("element_offset", VInt 1); ("model_item_index", VInt 1)] in
  let item n := VDict [("format", VInt 0); ("corresponding_present", VInt 0); ("corresponding_id", VInt 0); ("extended_models_items", VDict [("short", VList (repeat it n))])] in
  exists r, build_msg config_ModelRelationItem (item 64%nat) = Ok (0 :: r) /\ length r = 64%nat.
Proof. vm_compute. eauto. Qed.
(** On reception the counts are the lengths of the lists. *)
Lemma times_len p n : forall s l r, times_parse p n s = Ok (l, r) -> length l = n.
Proof.
  induction n as [|n IH]; intros s l r H; cbn [times_parse] in H; [now injection H as <- <-|].
  apply bind_ok in H as ([v r1] & _ & H). apply bind_ok in H as ([l' r2] & H & E). injection E as <- <-. cbn. now rewrite (IH _ _ _ H).
Qed.
Lemma array_count k c ctx s v r : parse (CArray (EGet k) c) ctx s = Ok (v, r) -> exists kv l, dget k ctx = Some kv /\ v = VList l /\ as_int kv = Some (Z.of_nat (length l)).
Proof.
  cbn [parse eval]. intros H. apply bind_ok in H as (n & E & H). apply bind_ok in E as (kv & K & E). apply dgetr_ok in K.
  destruct (Z.ltb_spec n 0); [discriminate|]. apply bind_ok in H as ([l r'] & H & E2). injection E2 as <- <-. apply times_len in H.
  exists kv, l. split; [exact K|]. split; [reflexivity|]. unfold as_intr in E. destruct (as_int kv); [|discriminate]. injection E as ->. rewrite H, Z2Nat.id by lia. reflexivity.
Qed.
Definition counts (k l : string) (u : dict) : Prop := exists n x, dget k u = Some n /\ dget l u = Some (VList x) /\ as_int n = Some (Z.of_nat (length x)).
Definition count_of : list (con * list (string * string)) :=
  [(config_CompositionDataPage0Element, [("sig_number", "sig_models"); ("vendor_number", "vendor_models")]);
   (config_CompositionDataPage1Element, [("number_s", "sig_models"); ("number_v", "vendor_models")]);
   (config_MeshProfileEntry, [("num_element_offsets", "element_offset_list"); ("additional_data_len", "additional_data")])].
Theorem C38_received : forall c l s u, In (c, l) count_of -> parse_msg c s = Ok (VDict u) -> forall k m, In (k, m) l -> counts k m u.
Proof.
  intros c l s u Hin H. unfold parse_msg in H. apply bind_ok in H as ([v r] & H & E). injection E as ->.
  unfold counts. destruct Hin as [Hin | [Hin | [Hin | []]]]; injection Hin as <- <-; cbn [parse] in H; apply bind_ok in H as ([u' r'] & H & E); injection E as <- <-; cbn [parse_fields] in H.
  - apply bind_ok in H as ([v1 r1] & _ & H). apply bind_ok in H as ([v2 r2] & _ & H). apply bind_ok in H as ([v3 r3] & _ & H).
    apply bind_ok in H as ([v4 r4] & P4 & H). apply bind_ok in H as ([v5 r5] & P5 & H). injection H as <- <-.
    apply (array_count "sig_number" config_SIGModelId) in P4 as (k4 & l4 & K4 & -> & A4). apply (array_count "vendor_number" config_VendorModelId) in P5 as (k5 & l5 & K5 & -> & A5).
    cbn in K4, K5. injection K4 as <-. injection K5 as <-. intros k m [E | [E | []]]; injection E as <- <-; eexists; eexists; (split; [reflexivity|]); (split; [reflexivity|]); assumption.
  - apply bind_ok in H as ([v2 r2] & _ & H). apply bind_ok in H as ([v3 r3] & _ & H).
    apply bind_ok in H as ([v4 r4] & P4 & H). apply bind_ok in H as ([v5 r5] & P5 & H). injection H as <- <-.
    apply (array_count "number_s" config_ModelRelationItem) in P4 as (k4 & l4 & K4 & -> & A4). apply (array_count "number_v" config_ModelRelationItem) in P5 as (k5 & l5 & K5 & -> & A5).
    cbn in K4, K5. injection K4 as <-. injection K5 as <-. intros k m [E | [E | []]]; injection E as <- <-; eexists; eexists; (split; [reflexivity|]); (split; [reflexivity|]); assumption.
  - apply bind_ok in H as ([v1 r1] & _ & H). apply bind_ok in H as ([v2 r2] & _ & H). apply bind_ok in H as ([v3 r3] & _ & H).
    apply bind_ok in H as ([v4 r4] & P4 & H). apply bind_ok in H as ([v5 r5] & _ & H). apply bind_ok in H as ([v6 r6] & P6 & H). injection H as <- <-.
    apply (array_count "num_element_offsets" Int8ul) in P4 as (k4 & l4 & K4 & -> & A4). apply (array_count "additional_data_len" Int8ul) in P6 as (k5 & l5 & K5 & -> & A5).
    cbn in K4, K5. injection K4 as <-. injection K5 as <-. intros k m [E | [E | []]]; injection E as <- <-; eexists; eexists; (split; [reflexivity|]); (split; [reflexivity|]); assumption.
Qed.
Print Assumptions C38_page0_element.
Print Assumptions C38_page1_element.
Print Assumptions C38_mesh_profile_entry.
Print Assumptions C38_relation_item.
Print Assumptions C38_received.
(** a wrong count is passed: the right one is sent *)
Example C38_ex : build_msg config_CompositionDataPage0Element
  (VDict [("location", VInt 0x100); ("sig_number", VInt 9); ("sig_models", VList [VDict [("model_id", VInt 7)]; VDict [("model_id", VInt 8)]]); ("vendor_models", VList [])]) =
  Ok [0; 1; 2; 0; 7; 0; 8; 0].
Proof. vm_compute. reflexivity. Qed.

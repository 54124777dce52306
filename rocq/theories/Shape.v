(** * Shape: what the values a declaration decodes to look like (basis of C54).

    [sh c] is read off a declaration: the type and range of every value the parser can return for it.  The main
    lemma, [parse_shape], is by induction on declarations and holds for every byte string. *)
From Verif Require Import PyVal Bits Float64 Utf8 Adapters Construct Size Master Sound Vocab.
Local Open Scope list_scope.
Local Open Scope Z_scope.

(** ** Shapes *)
Inductive shape :=
| SInt (lo hi : Z)                                     (* an int *)
| SEnum (t : enum)                                     (* a member of t *)
| SBool
| SNum                                                 (* an int or a float *)
| SFlt (lo hi : Z)                                     (* a float that equals an int *)
| SStr | SBytes | SNone | SIp
| SSecs (lo hi : Z)                                    (* a timedelta of whole seconds *)
| STd | SDate | SDateTime
| SList (max : option Z) (s : shape)                   (* a list or a set, of at most [max] elements *)
| SRec (name : option string) (fs : list (string * (bool * shape)))    (* a dict: keys, whether always there, shapes *)
| SAlt (l : list shape)
| SAny.

Definition name_is (n : option string) (d : dict) : Prop :=
  dget "_name" d = match n with Some n => Some (VStr (cps n)) | None => None end.
Definition flds := list (string * (bool * shape)).
Fixpoint sget (k : string) (G : flds) : option shape :=
  match G with [] => None | (j, (_, s)) :: G' => if String.eqb k j then Some s else sget k G' end.
(** [h]: there may be entries whose key starts with an underscore *)
Inductive inh (h : bool) : shape -> val -> Prop :=
| inh_int lo hi z : lo <= z <= hi -> inh h (SInt lo hi) (VInt z)
| inh_enum t n z : by_value t z = Some (VEnum n z) -> inh h (SEnum t) (VEnum n z)
| inh_bool b : inh h SBool (VBool b)
| inh_numi z : inh h SNum (VInt z)
| inh_numf q : inh h SNum (VFloat q)
| inh_inf : inh h SNum VInf
| inh_ieee n b : inh h SNum (VIeee n b)
| inh_flt lo hi z q : lo <= z <= hi -> (q == inject_Z z)%Q -> inh h (SFlt lo hi) (VFloat q)
| inh_str s : inh h SStr (VStr s)
| inh_bytes l : inh h SBytes (VBytes l)
| inh_none : inh h SNone VNone
| inh_ip l : inh h SIp (VIPv4 l)
| inh_secs lo hi z : lo <= z <= hi -> inh h (SSecs lo hi) (VTimedelta (z * 1000000))
| inh_td us : inh h STd (VTimedelta us)
| inh_date z : min_day <= z <= max_day -> inh h SDate (VDate z)
| inh_dt us k : in_dt (us + k * 60 * 1000000) = true -> -1440 <= k <= 1440 -> inh h SDateTime (VDateTime us (k * 60))
| inh_list m s l : (forall x, In x l -> inh h s x) -> (forall n, m = Some n -> Z.of_nat (length l) <= n) -> inh h (SList m s) (VList l)
| inh_set m s l : h = true -> (forall x, In x l -> inh h s x) -> (forall n, m = Some n -> Z.of_nat (length l) <= n) -> inh h (SList m s) (VSet l)
| inh_rec n fs d : NoDup (keys d) -> name_is n d ->
    (forall k x, In (k, x) d -> (h = true /\ hidden k = true) \/ exists s, sget k fs = Some s /\ inh h s x) ->
    (forall k s, In (k, (true, s)) fs -> In k (keys d)) -> inh h (SRec n fs) (VDict d)
| inh_alt l s v : In s l -> inh h s v -> inh h (SAlt l) v
| inh_any v : inh h SAny v.

(** ** The shape of what is decoded *)
Definition sdel (k : string) (G : flds) : flds := filter (fun p => negb (String.eqb k (fst p))) G.
(** an entry replaces the earlier ones of that key *)
Definition sput (k : string) (b : bool) (s : shape) (G : flds) : flds :=
  if hidden k && negb (String.eqb k "_name") then G else sdel k G ++ [(k, (b, s))].
(** the members of a class, without aliases *)
Definition members (t : enum) : enum :=
  filter (fun p => match by_value t (snd p) with Some (VEnum n _) => String.eqb n (fst p) | _ => false end) t.
Definition bytelist : shape := SList None (SInt 0 255).
Definition imin (l : list Z) : Z := fold_right Z.min (hd 0 l) l.
Definition imax (l : list Z) : Z := fold_right Z.max (hd 0 l) l.
(** bounds of an int-like value *)
Definition bounds (s : shape) : option (Z * Z) :=
  match s with
  | SInt lo hi => Some (lo, hi)
  | SEnum t => Some (imin (map snd t), imax (map snd t))
  | SBool => Some (0, 1)
  | _ => None
  end.
Definition scale (b : Z * Z) (f : Z -> Z) : Z * Z := (f (fst b), f (snd b)).
(** bounds of the entry [k] where there is one; Some None: there is none *)
Fixpoint field_bounds (k : string) (s : shape) : option (option (Z * Z)) :=
  match s with
  | SRec _ fs => match sget k fs with Some x => option_map Some (bounds x) | None => Some None end
  | SAlt l => (fix go (l : list shape) : option (option (Z * Z)) :=
                 match l with
                 | [] => Some None
                 | s :: l' => match field_bounds k s, go l' with
                              | Some None, Some b => Some b
                              | Some b, Some None => Some b
                              | Some (Some (a, b)), Some (Some (a', b')) => Some (Some (Z.min a a', Z.max b b'))
                              | _, _ => None
                              end
                 end) l
  | _ => None
  end.
Definition none_time : shape :=
  SRec None [("date"%string, (true, SNone)); ("tai_utc_delta"%string, (true, SNone)); ("time_authority"%string, (true, SNone)); ("uncertainty"%string, (true, SNone))].
Definition sha (a : adapter) (s : shape) : shape :=
  match a with
  | AEnum t => SEnum t
  | ARange lo hi =>
      match s with
      | SInt l h => SInt (match lo with Some x => Z.max x l | None => l end) (match hi with Some x => Z.min x h | None => h end)
      | _ => s
      end
  | AMask _ | AAddrIn _ | AAddrOut _ | AFixedString => s
  | ALog b (Some m) i => if 1 <=? m then SAlt (SInt 0 (2 ^ (m - 1)) :: if i then [SNum] else []) else SAny
  | ALog _ None _ => SNum
  | ACount _ _ _ _ | ATransition _ | ADelay | ATimeExp8 => SNum
  | ARetransmit iv =>
      match s with
      | SRec _ fs => match sget "count" fs, field_bounds "interval_steps" s with
                     | Some c, Some (Some (lo, hi)) => if 0 <=? iv then SRec None [("count"%string, (true, c)); ("interval"%string, (true, SInt ((lo + 1) * iv) ((hi + 1) * iv)))] else SAny
                     | _, _ => SAny
                     end
      | _ => SAny
      end
  | AKeyIndices =>
      match s with
      | SList _ (SAlt l) =>
          let one (k : string) (fs : flds) := match sget k fs with Some x => [x] | None => [] end in
          SList None (SAlt (flat_map (fun s => match s with SRec _ fs => one "last"%string fs ++ one "first"%string fs ++ one "second"%string fs | _ => [SAny] end) l))
      | _ => SAny
      end
  | ABitList _ _ => match s with SList (Some m) _ => SList None (SInt 0 (m - 1)) | _ => SAny end
  | ASet => match s with SList m x => SList m x | _ => SAny end
  | AMac => SStr
  | AIp => SIp
  | ADate => SDate
  | ATime =>
      match field_bounds "tai_utc_delta" s with
      | Some (Some (lo, hi)) => SAlt [none_time; SRec None [("date"%string, (true, SDateTime)); ("tai_utc_delta"%string, (true, SSecs (lo - 255) (hi - 255)));
                                                     ("time_authority"%string, (true, SBool)); ("uncertainty"%string, (true, STd))]]
      | Some None => none_time
      | None => SAny
      end
  | ATimestamp => SRec None [("date"%string, (true, SDateTime)); ("tai_utc_delta"%string, (true, SSecs (-255) 32512))]
  end.
Definition shv (d : val) : shape := match d with VInt z => SInt z z | VNone => SNone | _ => SAny end.
(** the entries copied out of a bit struct *)
Fixpoint sh_copy (bs : fields) (B G : flds) : flds :=
  match bs with
  | FNil => G
  | FCons k _ fs | FDefault k _ _ fs | FRebuild k _ _ fs | FPad (Some k) _ fs =>
      sh_copy fs B (match sget k B with Some s => sput k true s G | None => G end)
  | FPad None _ fs | FStopIf _ fs | FBits _ _ fs => sh_copy fs B G
  end.
(** either the entries of G only, or those of G' *)
Definition optional (G G' : flds) : flds :=
  map (fun p => (fst p, (false, match sget (fst p) G with Some s => SAlt [s; snd (snd p)] | None => snd (snd p) end))) G'.
Definition kget (z : Z) (l : list (Z * shape)) : option shape :=
  match find (fun p => Z.eqb z (fst p)) l with Some p => Some (snd p) | None => None end.
Definition rec_of (s : shape) : option flds := match s with SRec None fs => Some fs | _ => None end.
Fixpoint sh (G : flds) (c : con) {struct c} : shape :=
  match c with
  | CInt n sg => SInt (int_min n sg) (int_max n sg)
  | CBytesInt n _ => SInt 0 (256 ^ Z.of_nat n - 1)
  | CBits n sg => if sg then SInt (- 2 ^ (Z.of_nat n - 1)) (2 ^ (Z.of_nat n - 1) - 1) else SInt 0 (2 ^ Z.of_nat n - 1)
  | CFlag => SBool
  | CIeee _ => SNum
  | CBytes _ | CGreedyBytes | CPrefixedBytes => SBytes
  | CGreedyString | CPaddedString _ | CPascalString => SStr
  | CPrefixedArray c1 | CGreedyRange c1 => SList None (sh G c1)
  | CArray e c1 => SList (match e with EConst n => Some n | _ => None end) (sh G c1)
  | CStruct fs => let G1 := shf [] fs in match sget "_name" G1 with None => SRec None G1 | Some _ => SAny end
  | CBitwise c1 | CBytewise c1 | CReversed _ c1 => sh G c1
  | CAdapt a c1 => sha a (sh G c1)
  | CSelect l => SAlt (shl G l)
  | CNamed n c1 => match sh G c1 with SRec None fs => SRec (Some n) fs | _ => SAny end
  | CSwitch _ cs => SAlt (SNone :: map snd (shk G cs))
  | CEnumSwitchStruct k cs =>
      match sget k G with
      | Some (SEnum t) => if vis_enum t then SAlt (map (fun p => SRec None [(lower (fst p), (true, match shs (snd p) G cs with Some s => s | None => SNone end))]) (members t)) else SAny
      | _ => SAny
      end
  | CIfDefault _ c1 d => SAlt [sh G c1; shv d]
  | COpcode t => SEnum t
  | CSwitchStruct k kc _ _ cs =>
      match sh [] kc with
      | SEnum t => if vis_enum t then SAlt (map (fun p => SRec None (sput (lower (fst p)) true (match shs (snd p) [(k, (true, SEnum [p]))] cs with Some s => s | None => SNone end)
                                                       (sput k true (SEnum [p]) []))) (members t)) else SAny
      | _ => SAny
      end
  | CProp hdr t cs =>
      match rec_of (sh G hdr) with
      | Some fs => let K := shk G cs in
                   SAlt (map (fun p => SRec None (sput (lower (fst p)) true (match kget (snd p) K with Some s => s | None => SAny end)
                                                       (sput "property_id" true (SEnum [p]) (sdel "property_id" fs)))) (members t))
      | None => SAny
      end
  | CSensorSetting hdr t cs =>
      match rec_of (sh G hdr) with
      | Some fs => let K := shk G cs in
                   if forallb (fun p => match by_value t (fst p) with Some _ => true | None => false end) K then
                     match sget sid_name fs with
                     | Some s0 => SAlt (SRec None (sput raw_name true bytelist (sput sid_name true s0 (sdel sid_name fs)))
                         :: map (fun p => SRec None (sput (lower (fst p)) true (match kget (snd p) K with Some s => s | None => bytelist end)
                                                          (sput sid_name true (SEnum [p]) (sdel sid_name fs)))) (members t))
                     | None => SAny
                     end
                   else SAny
      | None => SAny
      end
  | CSensorData t cs =>
      let K := shk G cs in
      let base (s : shape) : flds := sput sid_name true s [("format"%string, (true, SInt 0 1)); ("length"%string, (true, SInt 1 128))] in
      if forallb (fun p => match by_value t (fst p) with Some _ => true | None => false end) K then
        SAlt (SRec None (sput raw_name true bytelist (base (SInt 0 65535)))
          :: map (fun p => SRec None (sput (lower (fst p)) true (match kget (snd p) K with Some s => s | None => bytelist end) (base (SEnum [p])))) (members t))
      else SAny
  end
with shf (G : flds) (fs : fields) {struct fs} : flds :=
  match fs with
  | FNil => G
  | FCons k c fs' | FDefault k c _ fs' | FRebuild k _ c fs' => shf (sput k true (sh G c) G) fs'
  | FPad k _ fs' => shf (match k with Some k => sput k true SNone G | None => G end) fs'
  | FStopIf _ fs' => optional G (shf G fs')
  | FBits _ bs fs' => shf (sh_copy bs (shf [] bs) G) fs'
  end
with shk (G : flds) (cs : cases) {struct cs} : list (Z * shape) :=
  match cs with KNil => [] | KCons _ z c cs' => (z, sh G c) :: shk G cs' end
(** the shape of the case of z only *)
with shs (z : Z) (G : flds) (cs : cases) {struct cs} : option shape :=
  match cs with KNil => None | KCons _ w c cs' => if Z.eqb z w then Some (sh G c) else shs z G cs' end
with shl (G : flds) (l : alts) {struct l} : list shape :=
  match l with ANil => [] | ACons c l' => sh G c :: shl G l' end.
Lemma shs_kget z G cs : shs z G cs = kget z (shk G cs).
Proof. unfold kget. induction cs as [|n w c cs IH]; [reflexivity|]. cbn [shs shk find fst snd]. destruct (z =? w); [reflexivity | exact IH]. Qed.

(** ** Dictionaries *)
Lemma nodup_dget d k x : NoDup (keys d) -> In (k, x) d -> dget k d = Some x.
Proof.
  induction d as [|[j y] d IH]; cbn [keys map fst dget]; intros N H; [destruct H|]. inversion_clear N as [|? ? N1 N2]. destruct H as [H | H].
  - injection H as -> ->. now rewrite String.eqb_refl.
  - destruct (String.eqb_spec k j) as [->|_]; [|auto]. destruct N1. apply in_map_iff. now exists (j, x).
Qed.
Lemma keys_dget d k : In k (keys d) <-> dget k d <> None.
Proof. pose proof (dget_None_in k d). destruct (dget k d); split; intros; try easy; [destruct (in_dec string_dec k (keys d)); [easy|]; tauto | tauto]. Qed.
Lemma sget_In k s G : sget k G = Some s -> exists b, In (k, (b, s)) G.
Proof.
  induction G as [|[j [b x]] G IH]; cbn [sget]; [discriminate|]. destruct (String.eqb_spec k j) as [->|_]; intros E.
  - injection E as ->. exists b. now left.
  - destruct (IH E) as [b' H]. exists b'. now right.
Qed.
Lemma sget_app k A B : sget k (A ++ B) = match sget k A with Some s => Some s | None => sget k B end.
Proof. induction A as [|[j [b x]] A IH]; cbn [sget app]; [easy|]. destruct (String.eqb k j); [easy | exact IH]. Qed.
Lemma sget_sdel k j G : sget k (sdel j G) = if String.eqb k j then None else sget k G.
Proof.
  induction G as [|[i [b x]] G IH]; [now destruct (String.eqb k j)|]. unfold sdel. cbn [filter sget fst]. fold (sdel j G).
  destruct (String.eqb_spec j i) as [->|Hn]; cbn [negb].
  - rewrite IH. now destruct (String.eqb k i).
  - cbn [sget]. rewrite IH. destruct (String.eqb_spec k i) as [->|_]; [|easy]. destruct (String.eqb_spec i j); [congruence | easy].
Qed.
Definition kept (k : string) : bool := negb (hidden k) || String.eqb k "_name".
Lemma sput_kept k b s G : kept k = true -> sput k b s G = sdel k G ++ [(k, (b, s))].
Proof. unfold kept, sput. now destruct (hidden k), (String.eqb k "_name"). Qed.
Lemma sput_not k b s G : kept k = false -> sput k b s G = G.
Proof. unfold kept, sput. now destruct (hidden k), (String.eqb k "_name"). Qed.
Lemma sget_sput_eq k b s G : kept k = true -> sget k (sput k b s G) = Some s.
Proof. intros H. rewrite (sput_kept _ _ _ _ H), sget_app, sget_sdel, String.eqb_refl. cbn [sget]. now rewrite String.eqb_refl. Qed.
Lemma sget_sput_neq j k b s G : j <> k -> sget j (sput k b s G) = sget j G.
Proof.
  intros H. destruct (kept k) eqn:E; [|now rewrite sput_not]. rewrite (sput_kept _ _ _ _ E), sget_app, sget_sdel. cbn [sget].
  destruct (String.eqb_spec j k); [congruence|]. now destruct (sget j G).
Qed.
Lemma sput_In j b' s' k b s G : In (j, (b', s')) (sput k b s G) -> j = k \/ In (j, (b', s')) G.
Proof.
  destruct (kept k) eqn:E; [rewrite (sput_kept _ _ _ _ E) | now rewrite sput_not; auto]. intros H. apply in_app_or in H as [H | [H | []]].
  - apply filter_In in H as [H _]. now right.
  - injection H as -> _ _. now left.
Qed.
Lemma vis_kept k : vis k = true -> kept k = true /\ k <> "_name"%string /\ hidden k = false.
Proof. unfold vis, kept. intros H. apply negb_true_iff in H. rewrite H. repeat split. intros ->. discriminate. Qed.

(** the entries of [d] are as [G] says *)
Definition has (G : flds) (d : dict) : Prop := forall k x, dget k d = Some x -> (hidden k = true /\ k <> "_name"%string) \/ exists s, sget k G = Some s /\ inh true s x.
Definition reqs (G : flds) (d : dict) : Prop := forall k s, In (k, (true, s)) G -> dget k d <> None.
Record isrec (G : flds) (d : dict) : Prop := { rec_keys : NoDup (keys d); rec_has : has G d; rec_reqs : reqs G d }.
Lemma isrec_nil : isrec [] []. Proof. split; [constructor | discriminate | intros k s []]. Qed.
Lemma dget_dset k j x d : dget k (dset j x d) = if String.eqb k j then Some x else dget k d.
Proof. destruct (String.eqb_spec k j) as [->|H]; [apply dget_dset_eq | now apply dget_dset_neq]. Qed.
Lemma isrec_put G d k s x : isrec G d -> inh true s x -> isrec (sput k true s G) (dset k x d).
Proof.
  intros [H1 H2 H3] Hx. split.
  - now apply NoDup_dset.
  - intros j y. rewrite dget_dset. destruct (String.eqb_spec j k) as [->|Hn].
    + intros E. injection E as <-. destruct (kept k) eqn:Ek; [right; exists s; split; [now apply sget_sput_eq | exact Hx]|].
      left. unfold kept in Ek. apply orb_false_iff in Ek as [E1 E2]. apply negb_false_iff in E1. split; [easy|]. now apply String.eqb_neq.
    + intros E. rewrite sget_sput_neq by exact Hn. auto.
  - intros j s' Hin. rewrite dget_dset. destruct (String.eqb_spec j k); [discriminate|]. apply sput_In in Hin as [->|Hin]; [congruence | eauto].
Qed.
Lemma isrec_hide G d k x : isrec G d -> hidden k = true -> k <> "_name"%string -> isrec G (dset k x d).
Proof.
  intros [H1 H2 H3] Hh Hn. split.
  - now apply NoDup_dset.
  - intros j y. rewrite dget_dset. destruct (String.eqb_spec j k) as [->|_]; [intros _; now left | apply H2].
  - intros j s' Hin. rewrite dget_dset. destruct (String.eqb j k); [discriminate | eauto].
Qed.
Lemma isrec_del G d k : isrec G d -> isrec (sdel k G) (ddel k d).
Proof.
  intros [H1 H2 H3]. split.
  - now apply NoDup_ddel.
  - intros j y E. assert (Hj : j <> k).
    { intros ->. clear -H1 E. induction d as [|[i z] d IH]; [discriminate|]. cbn [ddel] in E. cbn [keys map fst] in H1. inversion_clear H1 as [|? ? N1 N2].
      destruct (String.eqb_spec k i) as [->|Hn]; [|cbn [dget] in E; destruct (String.eqb_spec k i); [congruence | auto]].
      apply N1. apply keys_dget. unfold keys. rewrite E. discriminate. }
    rewrite dget_ddel_other in E by exact Hj. rewrite sget_sdel. destruct (String.eqb_spec j k); [congruence | auto].
  - intros j s' Hin. apply filter_In in Hin as [Hin Hb]. cbn [fst] in Hb. apply negb_true_iff, String.eqb_neq in Hb. rewrite dget_ddel_other by congruence. eauto.
Qed.
Lemma isrec_inh G d : isrec G d -> sget "_name" G = None -> inh true (SRec None G) (VDict d).
Proof.
  intros [H1 H2 H3] Hn. apply inh_rec; [exact H1 | | |].
  - unfold name_is. destruct (dget "_name" d) as [x|] eqn:E; [|easy]. destruct (H2 _ _ E) as [[_ C] | (s & C & _)]; [congruence | congruence].
  - intros k x Hin. apply nodup_dget in Hin; [|exact H1]. destruct (H2 _ _ Hin) as [[C _] | C]; [now left | now right].
  - intros k s Hin. apply keys_dget. eauto.
Qed.
Lemma inh_isrec G d : inh true (SRec None G) (VDict d) -> isrec G d.
Proof.
  intros H. inversion H as [| | | | | | | | | | | | | | | | | |n fs d' H1 H2 H3 H4|  |]; subst. split; [exact H1 | |].
  - intros k x E. pose proof (dget_In _ _ _ E) as Hin. destruct (H3 _ _ Hin) as [[_ C] | C]; [|now right]. destruct (String.eqb_spec k "_name") as [->|Hn]; [|now left].
    unfold name_is in H2. congruence.
  - intros k s Hin. apply keys_dget. eauto.
Qed.
Lemma inh_get n G d k x : inh true (SRec n G) (VDict d) -> hidden k = false -> dget k d = Some x -> exists s, sget k G = Some s /\ inh true s x.
Proof.
  intros H Hk E. inversion H as [| | | | | | | | | | | | | | | | | |n' fs d' H1 H2 H3 H4|  |]; subst. destruct (H3 _ _ (dget_In _ _ _ E)) as [[_ C] | C]; [congruence | exact C].
Qed.
Section shape_ind.
  Variable P : shape -> Prop.
  Hypothesis Hleaf : forall s, match s with SList _ _ | SRec _ _ | SAlt _ => False | _ => True end -> P s.
  Hypothesis Hlist : forall m s, P s -> P (SList m s).
  Hypothesis Hrec : forall n fs, Forall (fun p => P (snd (snd p))) fs -> P (SRec n fs).
  Hypothesis Halt : forall l, Forall P l -> P (SAlt l).
  Fixpoint shape_ind' (s : shape) : P s :=
    match s with
    | SList m s => Hlist m s (shape_ind' s)
    | SRec n fs => Hrec n fs ((fix go fs : Forall (fun p => P (snd (snd p))) fs :=
                                 match fs with [] => Forall_nil _ | (k, (b, s)) :: fs' => Forall_cons (k, (b, s)) (shape_ind' s) (go fs') end) fs)
    | SAlt l => Halt l ((fix go l : Forall P l := match l with [] => Forall_nil _ | s :: l' => Forall_cons s (shape_ind' s) (go l') end) l)
    | s => Hleaf s I
    end.
End shape_ind.
(** ** Adapters *)
Lemma imin_le l z : In z l -> imin l <= z.
Proof. unfold imin. generalize (hd 0 l). induction l as [|a l IH]; intros b H; [destruct H|]. cbn [fold_right]. destruct H as [-> | H]; [lia | specialize (IH b H); lia]. Qed.
Lemma imax_ge l z : In z l -> z <= imax l.
Proof. unfold imax. generalize (hd 0 l). induction l as [|a l IH]; intros b H; [destruct H|]. cbn [fold_right]. destruct H as [-> | H]; [lia | specialize (IH b H); lia]. Qed.
Lemma enum_bounds t n z : by_value t z = Some (VEnum n z) -> imin (map snd t) <= z <= imax (map snd t).
Proof.
  intros H. apply by_value_enum in H as (n' & _ & Hin). assert (In z (map snd t)) by (apply in_map_iff; now exists (n', z)).
  split; [now apply imin_le | now apply imax_ge].
Qed.
Lemma bounds_ok h s x lo hi z : inh h s x -> bounds s = Some (lo, hi) -> as_int x = Some z -> lo <= z <= hi.
Proof.
  intros H B E. destruct s; try discriminate; cbn [bounds] in B; injection B as <- <-; inversion H; subst; cbn [as_int] in E.
  - injection E as <-. assumption.
  - injection E as <-. eapply enum_bounds; eassumption.
  - injection E as <-. destruct b; lia.
Qed.
Lemma geti_some k d z : geti k d = Ok z -> exists x, dget k d = Some x /\ as_int x = Some z.
Proof. unfold geti, dgetr, as_intr. destruct (dget k d) as [x|]; [|discriminate]. cbn [bind]. destruct (as_int x) eqn:E; [|discriminate]. intros H. injection H as <-. eauto. Qed.
Lemma field_bounds_ok k d z : hidden k = false -> geti k d = Ok z -> forall s o, inh true s (VDict d) -> field_bounds k s = Some o -> exists lo hi, o = Some (lo, hi) /\ lo <= z <= hi.
Proof.
  intros Hk Hz. apply geti_some in Hz as (x & Ex & Ez). induction s as [s Hs | m s IH | n fs IH | l IH] using shape_ind'; intros o H B; try discriminate.
  - destruct s; try discriminate; destruct Hs.
  - cbn [field_bounds] in B. destruct (inh_get _ _ _ _ _ H Hk Ex) as (s & Es & Hi). rewrite Es in B.
    destruct (bounds s) as [[lo hi]|] eqn:Eb; [|discriminate]. cbn [option_map] in B. injection B as <-. exists lo, hi. split; [easy|]. eapply bounds_ok; eassumption.
  - inversion H as [| | | | | | | | | | | | | | | | | | |l' s v Hin Hi Es|]; subst. revert o B. induction IH as [|s0 l Hs0 _ IHl]; intros o B; [destruct Hin|].
    change (match field_bounds k s0, field_bounds k (SAlt l) with
            | Some None, Some b => Some b | Some b, Some None => Some b | Some (Some (a, b)), Some (Some (a', b')) => Some (Some (Z.min a a', Z.max b b'))
            | _, _ => None end = Some o) in B.
    destruct (field_bounds k s0) as [b0|] eqn:E0; [|discriminate].
    destruct (field_bounds k (SAlt l)) as [bl|] eqn:El; [|now destruct b0 as [[? ?]|]].
    destruct Hin as [-> | Hin].
    + destruct (Hs0 _ Hi eq_refl) as (lo & hi & -> & Hz). destruct bl as [[a b]|]; injection B as <-; [|eauto]. do 2 eexists. split; [reflexivity | lia].
    + destruct (IHl (inh_alt true l s (VDict d) Hin Hi) Hin _ eq_refl) as (lo & hi & -> & Hz). destruct b0 as [[a b]|]; injection B as <-; [|eauto]. do 2 eexists. split; [reflexivity | lia].
Qed.
Lemma set_bits_bound l : forall i x, In x (set_bits i l) -> exists z, x = VInt z /\ i <= z < i + Z.of_nat (length l).
Proof.
  induction l as [|a l IH]; cbn [set_bits length]; intros i x; [easy|]. intros H. destruct (truthy a); [destruct H as [<- | H]|].
  - exists i. split; [easy | lia].
  - destruct (IH _ _ H) as (z & -> & Hz). exists z. split; [easy | lia].
  - destruct (IH _ _ H) as (z & -> & Hz). exists z. split; [easy | lia].
Qed.
Lemma inh_elems m s l v : v = VList l \/ v = VSet l -> inh true (SList m s) v -> (forall x, In x l -> inh true s x) /\ (forall n, m = Some n -> Z.of_nat (length l) <= n).
Proof. intros [-> | ->] H; inversion H; subst; auto. Qed.
Lemma inh_altd l d : inh true (SAlt l) (VDict d) -> exists s, In s l /\ inh true s (VDict d).
Proof. intros H. inversion H; subst. eauto. Qed.
Lemma length_filter {A} (f : A -> bool) l : (length (filter f l) <= length l)%nat.
Proof. induction l as [|a l IH]; cbn [filter length]; [lia|]. destruct (f a); cbn [length]; lia. Qed.
Lemma dedup_length l : (length (dedup l) <= length l)%nat.
Proof. induction l as [|a l IH]; cbn [dedup length]; [lia|]. pose proof (length_filter (fun y => negb (val_num_eqb a y)) (dedup l)). lia. Qed.
Definition key_shapes (l : list shape) : list shape :=
  let one (k : string) (fs : flds) := match sget k fs with Some x => [x] | None => [] end in
  flat_map (fun s => match s with SRec _ fs => one "last"%string fs ++ one "first"%string fs ++ one "second"%string fs | _ => [SAny] end) l.
Lemma key_shape l d k x : inh true (SAlt l) (VDict d) -> In k ["last"; "first"; "second"]%string -> dget k d = Some x -> inh true (SAlt (key_shapes l)) x.
Proof.
  intros H Hk Ex. apply inh_altd in H as (s & Hs & Hi). destruct s; try (apply (inh_alt _ _ SAny); [apply in_flat_map; eexists; split; [exact Hs | now left] | constructor]).
  destruct (inh_get _ _ _ k x Hi) as (s' & Es & Hx); [destruct Hk as [<- | [<- | [<- | []]]]; reflexivity | exact Ex|].
  apply (inh_alt _ _ s'); [|exact Hx]. apply in_flat_map. eexists. split; [exact Hs|]. cbv beta iota zeta.
  destruct Hk as [<- | [<- | [<- | []]]]; rewrite Es; repeat (apply in_or_app; first [left; now left | right]); now left.
Qed.
Lemma flatten_shape l : forall s r, (forall x, In x l -> inh true (SAlt s) x) -> flatten_items l = Ok r -> forall x, In x r -> inh true (SAlt (key_shapes s)) x.
Proof.
  intros s. induction l as [|a l IH]; intros r Hl; cbn [flatten_items]; [intros E; injection E as <-; easy|].
  assert (Ha := Hl a (or_introl eq_refl)). destruct a; try discriminate.
  destruct (flatten_items l) as [r1| |]; try discriminate. cbn [bind]. specialize (IH r1 (fun x H => Hl x (or_intror H)) eq_refl).
  destruct (dget "last" d) as [v|] eqn:E.
  - intros E1. injection E1 as <-. intros x [<- | H]; [eapply key_shape; [exact Ha | now left | exact E] | auto].
  - destruct (dgetr "first" d) as [f| |] eqn:Ef; try discriminate. destruct (dgetr "second" d) as [g| |] eqn:Eg; try discriminate. cbn [bind].
    intros E1. injection E1 as <-. apply dgetr_some in Ef, Eg.
    intros x [<- | [<- | H]]; [eapply key_shape; [exact Ha | right; now left | exact Ef] | eapply key_shape; [exact Ha | right; right; now left | exact Eg] | auto].
Qed.
Lemma zone_dt us tz off : off = zone_seconds tz -> tz_ok off = true -> in_dt (us + off * 1000000) = true -> inh true SDateTime (VDateTime us off).
Proof.
  unfold zone_seconds, tz_ok. intros -> H1 H2. apply andb_prop in H1 as [A B]. apply Z.ltb_lt in A, B.
  replace ((tz - 64) * 900) with (((tz - 64) * 15) * 60) in * by lia. apply inh_dt; [exact H2 | lia].
Qed.
Lemma inh_rec2 a b x y k j : k <> "_name"%string -> j <> "_name"%string -> hidden k = false -> hidden j = false -> k <> j ->
  inh true a x -> inh true b y -> inh true (SRec None [(k, (true, a)); (j, (true, b))]) (VDict [(k, x); (j, y)]).
Proof.
  intros Hk Hj Vk Vj N Ha Hb. apply isrec_inh; [|cbn [sget]; destruct (String.eqb_spec "_name" k); [congruence|]; destruct (String.eqb_spec "_name" j); congruence].
  split.
  - cbn. constructor; [intros [E | []]; congruence | constructor; [easy | constructor]].
  - intros i z. cbn [dget sget]. destruct (String.eqb i k); [intros E; injection E as <-; right; eauto|]. destruct (String.eqb i j); [intros E; injection E as <-; right; eauto | discriminate].
  - intros i s [E | [E | []]]; injection E as <- <-; cbn [dget]; rewrite ?String.eqb_refl; try destruct (String.eqb _ _); discriminate.
Qed.
Lemma isrec_time a b c d x y z w : inh true a x -> inh true b y -> inh true c z -> inh true d w ->
  inh true (SRec None [("date"%string, (true, a)); ("tai_utc_delta"%string, (true, b)); ("time_authority"%string, (true, c)); ("uncertainty"%string, (true, d))])
           (VDict [("date"%string, x); ("tai_utc_delta"%string, y); ("time_authority"%string, z); ("uncertainty"%string, w)]).
Proof.
  intros. apply isrec_inh; [|reflexivity].
  exact (isrec_put _ _ "uncertainty" _ _ (isrec_put _ _ "time_authority" _ _ (isrec_put _ _ "tai_utc_delta" _ _ (isrec_put _ _ "date" _ _ isrec_nil H) H0) H1) H2).
Qed.
Ltac step E := match type of E with
  | Err _ = _ => discriminate E
  | Ok _ = _ => injection E as E; try (rewrite <- E in * )
  | bind ?r _ = _ => let x := fresh "x" in destruct r as [x| |] eqn:?; cbn [bind] in E; [|discriminate E|discriminate E]
  | (match ?r with _ => _ end) = _ => destruct r eqn:?; try discriminate E
  | (if ?b then _ else _) = _ => destruct b; try discriminate E
  end.
Ltac brk E := repeat (match type of E with
  | Err _ = _ => discriminate E
  | Ok _ = Ok _ => injection E as <- <-
  | bind ?r _ = _ => let x := fresh "x" in destruct r as [x| |] eqn:?; cbn [bind] in E; [|discriminate E|discriminate E]
  | (let (_, _) := ?r in _) = _ => destruct r
  | (match ?r with _ => _ end) = _ => destruct r eqn:?; try discriminate E
  | (if ?b then _ else _) = _ => destruct b eqn:?; try discriminate E
  end).
Lemma validate_same p w v : validate p w = Ok v -> w = v /\ exists z, as_int w = Some z /\ p z = true.
Proof. unfold validate. destruct (as_int w) as [z|]; [|discriminate]. destruct (p z) eqn:E; [|discriminate]. intros H. injection H as <-. eauto. Qed.
Lemma decode_shape a s w v : inh true s w -> decode a w = Ok v -> inh true (sha a s) v.
Proof.
  intros Hw E. destruct a; cbn [decode sha] in *.
  - unfold enum_decode in E. repeat step E. destruct (by_value_enum _ _ _ Heqo0) as (n & -> & _). now constructor.
  - apply validate_same in E as (<- & z & Ez & Hr). destruct s; try exact Hw. inversion Hw; subst. cbn [as_int] in Ez. injection Ez as ->.
    unfold in_range in Hr. constructor. apply andb_prop in Hr as [R1 R2]. destruct lo as [l|], hi as [g|]; lia.
  - apply validate_same in E as (<- & _). exact Hw.
  - apply validate_same in E as (<- & _). exact Hw.
  - apply validate_same in E as (<- & _). exact Hw.
  - destruct max as [m|].
    + destruct (1 <=? m) eqn:Hm; [|constructor]. apply Z.leb_le in Hm. apply bind_ok in E as (z & _ & E). unfold log_decode in E.
      assert (P2 : 0 <= 2 ^ (m - 1)) by (apply Z.pow_nonneg; lia).
      destruct (z =? 0); [injection E as <-; eapply inh_alt; [now left | constructor; lia]|].
      destruct ((z =? _) && inf) eqn:Ei; [injection E as <-; apply andb_prop in Ei as [_ ->]; eapply inh_alt; [right; now left | constructor]|].
      destruct (m <? z) eqn:Ez; [discriminate|]. injection E as <-. apply Z.ltb_ge in Ez. eapply inh_alt; [now left | constructor].
      split; [apply Z.pow_nonneg; lia|]. destruct (Z.neg_nonneg_cases (z - 1)); [rewrite Z.pow_neg_r by lia; exact P2 | apply Z.pow_le_mono_r; lia].
    + apply bind_ok in E as (z & _ & E). unfold log_decode in E. repeat step E; constructor.
  - apply bind_ok in E as (z & _ & E). injection E as <-. unfold count_decode. destruct (_ && _); [constructor|]. destruct r; constructor.
  - unfold transition_decode in E. repeat step E. unfold times. match goal with |- context [match ?r with _ => _ end] => destruct r end; constructor.
  - unfold delay_decode in E. repeat step E; constructor.
  - (* ARetransmit *) unfold retransmit_decode in E. destruct w as [| | | | | | | | | | d | | | | |]; try discriminate. destruct s as [| | | | | | | | | | | | | |n fs| |]; try constructor.
    apply bind_ok in E as (c & Ec & E). apply bind_ok in E as (x & Ex & E). apply bind_ok in E as (z & Ez & E). injection E as <-.
    assert (Gz : geti "interval_steps" d = Ok z) by (unfold geti; rewrite Ex; exact Ez).
    apply dgetr_some in Ec. destruct (inh_get _ _ _ _ _ Hw (eq_refl : hidden "count" = false) Ec) as (sc & -> & Hc).
    destruct (field_bounds "interval_steps" (SRec n fs)) as [o|] eqn:Eb; [|constructor].
    destruct (field_bounds_ok _ _ _ (eq_refl : hidden "interval_steps" = false) Gz _ _ Hw Eb) as (lo & hi & -> & Hz).
    destruct (0 <=? interval) eqn:Hi; [|constructor]. apply Z.leb_le in Hi. apply inh_rec2; try easy. constructor. nia.
  - (* AKeyIndices *) unfold key_indices_decode in E. destruct w as [| | | | | | | |l| | | | | | |]; try discriminate. apply bind_ok in E as (r & Er & E). injection E as <-.
    destruct s as [| | | | | | | | | | | | |m s| | |]; try constructor. destruct s; try constructor; try discriminate.
    + destruct (inh_elems _ _ _ _ (or_introl eq_refl) Hw) as [He _]. intros x Hx. apply isort_in in Hx. exact (flatten_shape l _ r He Er x Hx).
  - (* ABitList *) unfold bitlist_decode in E. destruct w as [| | | | | | | |l| | | | | | |]; try discriminate. injection E as <-.
    destruct s as [| | | | | | | | | | | | |m s| | |]; try constructor. destruct m as [m|]; [|constructor]. constructor; [reflexivity| |discriminate].
    destruct (inh_elems _ _ _ _ (or_introl eq_refl) Hw) as [_ He]. specialize (He m eq_refl). intros x Hx. apply set_bits_bound in Hx as (z & -> & Hz). constructor.
    assert (length (if rev then List.rev l else l) = length l) by (destruct rev; [apply rev_length | easy]). lia.
  - (* ASet *) unfold set_decode in E. destruct w as [| | | | | | | |l| | | | | | |]; try discriminate. injection E as <-.
    destruct s as [| | | | | | | | | | | | |m s| | |]; try constructor; try reflexivity; destruct (inh_elems _ _ _ _ (or_introl eq_refl) Hw) as [He Hm].
    + intros x Hx. apply dedup_in in Hx. auto.
    + intros n ->. specialize (Hm n eq_refl). pose proof (dedup_length l). lia.
  - unfold mac_decode in E. repeat step E. constructor.
  - unfold ip_decode in E. repeat step E. constructor.
  - unfold date_decode in E. apply bind_ok in E as (z & _ & E). destruct (_ && _) eqn:Ez; [|discriminate]. injection E as <-. apply andb_prop in Ez as [A B]. constructor. lia.
  - unfold exp8_decode in E. repeat step E; constructor.
  - injection E as <-. exact Hw.
  - (* ATime *) unfold time_decode in E. destruct w as [| | | | | | | | | | d | | | | |]; try discriminate. apply bind_ok in E as (t & _ & E).
    assert (N : inh true none_time (VDict [("date"%string, VNone); ("tai_utc_delta"%string, VNone); ("time_authority"%string, VNone); ("uncertainty"%string, VNone)])) by (apply isrec_time; constructor).
    destruct (t =? 0).
    { injection E as <-. destruct (field_bounds "tai_utc_delta" s) as [[[lo hi]|]|]; [|exact N | constructor]. eapply inh_alt; [now left | exact N]. }
    apply bind_ok in E as (tz & _ & E). apply bind_ok in E as (sub & _ & E). destruct (tz_ok (zone_seconds tz)) eqn:Eo; [|discriminate]. cbn [negb] in E.
    match type of E with (if ?b then _ else _) = _ => destruct b eqn:Ed; [|discriminate] end. apply andb_prop in Ed as [_ Ed].
    apply bind_ok in E as (dl & Edl & E). apply bind_ok in E as (au & _ & E). apply bind_ok in E as (un & _ & E). injection E as <-.
    destruct (field_bounds "tai_utc_delta" s) as [o|] eqn:Eb; [|constructor].
    destruct (field_bounds_ok _ _ _ (eq_refl : hidden "tai_utc_delta" = false) Edl _ _ Hw Eb) as (lo & hi & -> & Hz).
    eapply inh_alt; [right; now left|]. apply isrec_time; try constructor; [eapply zone_dt; [reflexivity | exact Eo | exact Ed] | lia].
  - (* ATimestamp *) unfold timestamp_decode in E. destruct w as [| | | | | | | | | | d | | | | |]; try discriminate. apply bind_ok in E as (raw & _ & E).
    destruct (Z.odd (raw / 32768)); [discriminate|]. apply bind_ok in E as (tz & _ & E). apply bind_ok in E as (t & _ & E).
    destruct (tz_ok (zone_seconds tz)) eqn:Eo; [|discriminate]. cbn [negb] in E.
    match type of E with (if ?b then _ else _) = _ => destruct b eqn:Ed; [|discriminate] end. apply andb_prop in Ed as [_ Ed]. injection E as <-.
    apply inh_rec2; try easy.
    + eapply zone_dt; [reflexivity | exact Eo|]. rewrite <- Ed. f_equal. ring.
    + unfold delta_of_mesh. constructor. pose proof (Z.mod_pos_bound raw 32768 ltac:(lia)). lia.
Qed.

(** ** Declarations *)
Lemma shf_true fs : forall l G, bit_names fs = Some l -> (forall p, In p G -> fst (snd p) = true) -> forall p, In p (shf G fs) -> fst (snd p) = true.
Proof.
  assert (P : forall k s G, (forall p, In p G -> fst (snd p) = true) -> forall p : string * (bool * shape), In p (sput k true s G) -> fst (snd p) = true).
  { intros k s G H p. unfold sput. destruct (_ && _); [apply H|]. intros Hin. apply in_app_or in Hin as [Hin | [<- | []]]; [|easy]. apply filter_In in Hin as [Hin _]. auto. }
  induction fs; intros l G B H; cbn [bit_names shf] in *; try discriminate.
  - exact H.
  - destruct (bit_names fs); [|discriminate]. eapply IHfs; [reflexivity | now apply P].
  - destruct (bit_names fs); [|discriminate]. eapply IHfs; [reflexivity | now apply P].
  - destruct (bit_names fs); [|discriminate]. eapply IHfs; [reflexivity | now apply P].
  - destruct k; [|eapply IHfs; eassumption]. destruct (bit_names fs); [|discriminate]. eapply IHfs; [reflexivity | now apply P].
Qed.
Lemma copy_shape bs : forall l B bd G obj, bit_names bs = Some l -> (forall p, In p B -> fst (snd p) = true) -> isrec B bd -> isrec G obj -> isrec (sh_copy bs B G) (copy_named bs bd obj).
Proof.
  assert (S1 : forall k B bd G obj, (forall p, In p B -> fst (snd p) = true) -> isrec B bd -> isrec G obj ->
    isrec (match sget k B with Some s => sput k true s G | None => G end) (match dget k bd with Some v => dset k v obj | None => obj end)).
  { intros k B bd G obj HB Hb Ho. destruct (dget k bd) as [x|] eqn:E.
    - destruct (rec_has _ _ Hb _ _ E) as [[Hh Hn] | (s & -> & Hs)]; [|now apply isrec_put]. destruct (sget k B) as [s|]; [|now apply isrec_hide].
      rewrite sput_not; [now apply isrec_hide|]. unfold kept. rewrite Hh. cbn. now apply String.eqb_neq.
    - destruct (sget k B) as [s|] eqn:Es; [|exact Ho]. apply sget_In in Es as [b Hin]. pose proof (HB _ Hin) as Hb1. cbn in Hb1. subst b. now destruct (rec_reqs _ _ Hb _ _ Hin). }
  induction bs; intros l B bd G obj Hl HB Hb Ho; cbn [bit_names sh_copy copy_named] in *; try discriminate; [exact Ho| | | |].
  1-3: destruct (bit_names bs); [|discriminate]; eapply IHbs; eauto.
  destruct k; [|eapply IHbs; eauto]. destruct (bit_names bs); [|discriminate]. eapply IHbs; eauto.
Qed.
Lemma sget_optional k G G' : sget k (optional G G') = match sget k G' with Some s' => Some (match sget k G with Some s => SAlt [s; s'] | None => s' end) | None => None end.
Proof. unfold optional. induction G' as [|[j [b s']] G' IH]; cbn [map sget fst snd]; [easy|]. destruct (String.eqb_spec k j) as [->|_]; [easy | exact IH]. Qed.
Lemma sput_mono k j b s G : sget k G <> None -> sget k (sput j b s G) <> None.
Proof.
  destruct (String.eqb_spec k j) as [->|H]; [|now rewrite sget_sput_neq]. destruct (kept j) eqn:E; [|now rewrite sput_not]. now rewrite sget_sput_eq.
Qed.
Lemma copy_mono k bs : forall B G, sget k G <> None -> sget k (sh_copy bs B G) <> None.
Proof.
  induction bs; intros B G H; cbn [sh_copy]; auto.
  1-3: apply IHbs; destruct (sget k0 B); [now apply sput_mono | exact H].
  destruct k0; [|auto]. apply IHbs. destruct (sget s B); [now apply sput_mono | exact H].
Qed.
Lemma shf_mono k fs : forall G, sget k G <> None -> sget k (shf G fs) <> None.
Proof.
  induction fs; intros G H; cbn [shf]; auto using sput_mono, copy_mono.
  - destruct k0; auto using sput_mono.
  - rewrite sget_optional. specialize (IHfs G H). now destruct (sget k (shf G fs)).
Qed.
Lemma optional_reqs G G' d : reqs (optional G G') d.
Proof. intros k s H. unfold optional in H. apply in_map_iff in H as (p & E & _). discriminate. Qed.
Lemma isrec_optional_r G G' d : isrec G' d -> isrec (optional G G') d.
Proof.
  intros [H1 H2 H3]. split; [exact H1 | | apply optional_reqs]. intros k x E. destruct (H2 k x E) as [C | (s & Es & Hs)]; [now left | right]. rewrite sget_optional, Es.
  eexists. split; [reflexivity|]. destruct (sget k G); [|exact Hs]. eapply inh_alt; [right; now left | exact Hs].
Qed.
Lemma isrec_optional_l G fs d : isrec G d -> isrec (optional G (shf G fs)) d.
Proof.
  intros [H1 H2 H3]. split; [exact H1 | | apply optional_reqs]. intros k x E. destruct (H2 k x E) as [C | (s & Es & Hs)]; [now left | right]. rewrite sget_optional.
  pose proof (shf_mono k fs G) as M. rewrite Es in M |- *. destruct (sget k (shf G fs)); [|now destruct M]. eexists. split; [reflexivity|]. eapply inh_alt; [now left | exact Hs].
Qed.
Lemma members_in t n z : by_value t z = Some (VEnum n z) -> In (n, z) (members t).
Proof.
  intros H. pose proof (by_value_enum _ _ _ H) as (n' & E & Hin). injection E as <-. apply filter_In. split; [exact Hin|]. cbn [fst snd]. rewrite H. apply String.eqb_refl.
Qed.
Lemma inh_member n z : inh true (SEnum [(n, z)]) (VEnum n z).
Proof. constructor. cbn [by_value]. now rewrite Z.eqb_refl. Qed.
Lemma kget_find z cs G : kget z (shk G cs) = None <-> find_case z cs = None.
Proof.
  unfold kget. induction cs as [|n w c cs IH]; cbn [shk find find_case fst]; [easy|]. destruct (z =? w); [easy | exact IH].
Qed.
Lemma kget_In z l s : kget z l = Some s -> In (z, s) l.
Proof.
  unfold kget. destruct (find _ l) as [p|] eqn:E; [|discriminate]. intros H. injection H as <-. apply find_some in E as [E1 E2]. apply Z.eqb_eq in E2 as ->. now destruct p.
Qed.
Lemma setting_shape t v idv name z : setting_id t v = (idv, name) -> as_intr idv = Ok z ->
  (idv = v /\ name = raw_name /\ by_value t z = None) \/ exists n, idv = VEnum n z /\ name = lower n /\ by_value t z = Some (VEnum n z).
Proof.
  unfold setting_id. destruct (int_key v) as [z0|] eqn:Ek.
  - destruct (by_value t z0) as [m|] eqn:Eb.
    + destruct (by_value_enum _ _ _ Eb) as (n & -> & _). intros E Ei. injection E as <- <-. cbn [as_intr as_int] in Ei. injection Ei as <-. right. eauto.
    + intros E Ei. injection E as <- <-. left. repeat split. unfold as_intr in Ei. destruct (as_int v) eqn:Ev; [|discriminate]. injection Ei as <-.
      rewrite (int_key_as_int _ _ Ev) in Ek. now injection Ek as ->.
  - intros E Ei. injection E as <- <-. left. repeat split. unfold as_intr in Ei. destruct (as_int v) eqn:Ev; [|discriminate]. injection Ei as <-.
    rewrite (int_key_as_int _ _ Ev) in Ek. discriminate.
Qed.
Lemma bytelist_ok l : bytes l -> inh true bytelist (VList (map VInt l)).
Proof.
  intros H. constructor; [|discriminate]. intros x Hx. apply in_map_iff in Hx as (z & <- & Hz). unfold bytes in H. rewrite Forall_forall in H. specialize (H z Hz). unfold isbyte in H. constructor. lia.
Qed.
Definition g_con (c : con) : Prop := forall m G ctx s v r, wf m c = true -> units m s -> has G ctx -> parse c ctx s = Ok (v, r) -> inh true (sh G c) v.
Definition g_fields (fs : fields) : Prop := forall m G obj s d r, wff m fs = true -> units m s -> isrec G obj -> parse_fields fs obj s = Ok (d, r) -> isrec (shf G fs) d.
Definition g_cases (cs : cases) : Prop := forall m G z ctx s v r, wfk m cs = true -> units m s -> has G ctx -> parse_case z cs ctx s = Ok (v, r) ->
  match kget z (shk G cs) with Some sp => inh true sp v | None => v = VNone end.
Definition g_alts (l : alts) : Prop := forall m G ctx s v r, wfa m l = true -> units m s -> has G ctx -> parse_alts l ctx s = Ok (v, r) -> inh true (SAlt (shl G l)) v.
Lemma has_nil : has [] []. Proof. discriminate. Qed.
Lemma kget_alt z cs G w : match kget z (shk G cs) with Some sp => inh true sp w | None => w = VNone end ->
  inh true (match shs z G cs with Some s => s | None => SNone end) w.
Proof. intros H. rewrite shs_kget. destruct (kget z (shk G cs)); [exact H | subst w; constructor]. Qed.
Lemma kget_some z cs G nc (s : shape) : find_case z cs = Some nc -> kget z (shk G cs) <> None.
Proof. intros H C. apply kget_find in C. congruence. Qed.
Lemma rec_of_some s fs : rec_of s = Some fs -> s = SRec None fs.
Proof. destruct s as [| | | | | | | | | | | | | |n f| |]; try discriminate. destruct n; [discriminate|]. cbn. intros H. now injection H as ->. Qed.
Lemma name_free k b s G : hidden k = false -> sget "_name" (sput k b s G) = sget "_name" G.
Proof. intros H. apply sget_sput_neq. intros <-. discriminate. Qed.
Lemma name_none G d : inh true (SRec None G) (VDict d) -> dget "_name" d = None.
Proof. intros H. inversion H; subst. assumption. Qed.
Lemma isrec_name G d : isrec G d -> dget "_name" d = None -> inh true (SRec None G) (VDict d).
Proof.
  intros [H1 H2 H3] Hn. apply inh_rec; [exact H1 | exact Hn | |].
  - intros k x Hin. apply nodup_dget in Hin; [|exact H1]. destruct (H2 _ _ Hin) as [[C _] | C]; [now left | now right].
  - intros k s Hin. apply keys_dget. eauto.
Qed.
Lemma dget_ddel_none k j d : dget k d = None -> dget k (ddel j d) = None.
Proof.
  induction d as [|[i x] d IH]; cbn [dget ddel]; [easy|]. destruct (String.eqb_spec k i) as [->|Hn]; [discriminate|]. intros H.
  destruct (String.eqb j i); [exact H|]. cbn [dget]. destruct (String.eqb_spec k i); [congruence | auto].
Qed.
Theorem parse_shape_mut : (forall c, g_con c) /\ (forall fs, g_fields fs) /\ (forall cs, g_cases cs) /\ (forall l, g_alts l).
Proof.
  apply con_mutind; unfold g_con, g_fields, g_cases, g_alts.
  - (* CInt *) intros n sg m G ctx s v r W U He E. cbn [parse wf sh] in *. andb W. destruct m; [discriminate|]. apply Nat.ltb_lt in W0.
    apply bind_ok in E as ([a r0] & T & E). injection E as <- <-. destruct (units_take _ _ _ _ _ T U) as [Ua _]. apply take_ok in T as [_ <-].
    pose proof (of_le_bound a Ua) as B. rewrite pow256_2 in B. constructor. unfold int_of, int_min, int_max. destruct sg; [|lia].
    pose proof (to_signed_bound (8 * Z.of_nat (length a)) (of_le a) ltac:(lia) B). lia.
  - (* CBytesInt *) intros n sw m G ctx s v r W U He E. cbn [parse wf sh] in *. destruct m; [discriminate|].
    apply bind_ok in E as ([a r0] & T & E). injection E as <- <-. destruct (units_take _ _ _ _ _ T U) as [Ua _]. apply take_ok in T as [_ <-].
    assert (Ub : bytes (if sw then a else rev a)) by (destruct sw; [exact Ua | now apply Forall_rev]).
    pose proof (of_le_bound _ Ub) as B. replace (length (if sw then a else rev a)) with (length a) in B by (destruct sw; [easy | now rewrite rev_length]). constructor. lia.
  - (* CBits *) intros n sg m G ctx s v r W U He E. cbn [parse wf sh] in *. andb W. destruct m; [|discriminate]. apply Nat.ltb_lt in W0.
    apply bind_ok in E as ([a r0] & T & E). injection E as <- <-. destruct (units_take _ _ _ _ _ T U) as [Ua _]. apply take_ok in T as [_ <-].
    pose proof (of_bits_bound a Ua) as B. destruct sg; constructor; [|lia]. pose proof (to_signed_bound (Z.of_nat (length a)) (of_bits a) ltac:(lia) B). lia.
  - (* CFlag *) intros m G ctx s v r W U He E. cbn [parse sh] in *. destruct s; [discriminate|]. injection E as <- <-. constructor.
  - (* CIeee *) intros n m G ctx s v r W U He E. cbn [parse sh] in *. brk E. constructor.
  - (* CBytes *) intros n m G ctx s v r W U He E. cbn [parse sh] in *. brk E. constructor.
  - intros m G ctx s v r W U He E. cbn [parse sh] in *. brk E. constructor.
  - intros m G ctx s v r W U He E. cbn [parse sh] in *. brk E. constructor.
  - intros e m G ctx s v r W U He E. cbn [parse sh] in *. brk E. constructor.
  - intros m G ctx s v r W U He E. cbn [parse sh] in *. brk E. constructor.
  - intros m G ctx s v r W U He E. cbn [parse sh] in *. brk E. constructor.
  - (* CPrefixedArray *) intros c IH m G ctx s v r W U He E. cbn [parse wf sh] in *. andb W. destruct s as [|b s]; [discriminate|]. inversion_clear U as [|? ? U1 U2].
    apply bind_ok in E as ([l r0] & T & E). injection E as <- <-. constructor; [|discriminate].
    apply (times_elems m) in T as [_ F]; [|intros; eapply parse_units; eassumption | exact U2]. rewrite Forall_forall in F. intros x Hx. destruct (F x Hx) as (s' & r' & Us & Ep). eapply IH; eassumption.
  - (* CArray *) intros e c IH m G ctx s v r W U He E. cbn [parse wf sh] in *. andb W. apply bind_ok in E as (n & En & E). destruct (n <? 0) eqn:Hn; [discriminate|]. apply Z.ltb_ge in Hn.
    apply bind_ok in E as ([l r0] & T & E). injection E as <- <-. apply (times_elems m) in T as [L F]; [|intros; eapply parse_units; eassumption | exact U]. constructor.
    + rewrite Forall_forall in F. intros x Hx. destruct (F x Hx) as (s' & r' & Us & Ep). eapply IH; eassumption.
    + intros k Ek. destruct e; try discriminate. injection Ek as ->. cbn [eval] in En. injection En as ->. lia.
  - (* CGreedyRange *) intros c IH m G ctx s v r W U He E. cbn [parse wf sh] in *. andb W.
    apply bind_ok in E as ([l r0] & T & E). injection E as <- <-. constructor; [|discriminate].
    apply (greedy_elems m) in T as F; [|intros; eapply parse_units; eassumption | exact U]. rewrite Forall_forall in F. intros x Hx. destruct (F x Hx) as (s' & r' & Us & Ep). eapply IH; eassumption.
  - (* CStruct *) intros fs IH m G ctx s v r W U He E. cbn [parse wf sh] in *. apply bind_ok in E as ([d r0] & T & E). injection E as <- <-.
    pose proof (IH m [] [] s d r0 W U isrec_nil T) as R. destruct (sget "_name" (shf [] fs)) eqn:En; [constructor|]. now apply isrec_inh.
  - (* CBitwise *) intros c IH m G ctx s v r W U He E. cbn [parse wf sh] in *. andb W. apply bind_ok in E as ([w r0] & T & E). destruct (bits2bytes r0) as [r' []]; [|discriminate]. injection E as <- <-.
    eapply (IH true); [eassumption | apply bytes2bits_bits | exact He | exact T].
  - (* CBytewise *) intros c IH m G ctx s v r W U He E. cbn [parse wf sh] in *. andb W. destruct m; [|discriminate]. destruct (bits2bytes s) as [bs lo] eqn:Eb. apply bind_ok in E as ([w r0] & T & E). injection E as <- <-.
    destruct (bits2bytes_spec s U _ _ Eb) as (_ & Ub & _). eapply (IH false); [eassumption | exact Ub | exact He | exact T].
  - (* CReversed *) intros n c IH m G ctx s v r W U He E. cbn [parse wf sh] in *. andb W. apply bind_ok in E as ([a r0] & T & E). apply bind_ok in E as ([w r1] & T1 & E). destruct r1; [|discriminate]. injection E as <- <-.
    destruct (units_take _ _ _ _ _ T U) as [Ua _]. eapply (IH m G ctx (rev a)); [eassumption | now apply Forall_rev | exact He | exact T1].
  - (* CAdapt *) intros a c IH m G ctx s v r W U He E. cbn [parse wf sh] in *. apply bind_ok in E as ([w r0] & T & E). apply bind_ok in E as (v0 & D & E). injection E as <- <-.
    eapply decode_shape; [|exact D]. eapply IH; eassumption.
  - (* CSelect *) intros l IH m G ctx s v r W U He E. cbn [parse wf sh] in *. eapply IH; eassumption.
  - (* CNamed *) intros n c IH m G ctx s v r W U He E. cbn [parse wf sh] in *. apply bind_ok in E as ([w r0] & T & E). destruct w as [| | | | | | | | | | d | | | | |]; try discriminate. injection E as <- <-.
    pose proof (IH m G ctx s _ _ W U He T) as Hi. destruct (sh G c) as [| | | | | | | | | | | | | |nm fs| |]; try constructor. destruct nm as [nm|]; [constructor|].
    inversion Hi as [| | | | | | | | | | | | | | | | | |n' fs' d' H1 H2 H3 H4|  |]; subst. apply inh_rec.
    + now apply NoDup_dset.
    + unfold name_is. apply dget_dset_eq.
    + intros k x Hin. apply In_dset in Hin as [[-> ->] | Hin]; [now left | auto].
    + intros k sp Hin. apply keys_dget. rewrite dget_dset. destruct (String.eqb k "_name"); [discriminate|]. apply keys_dget. eauto.
  - (* CSwitch *) intros k cs IH m G ctx s v r W U He E. cbn [parse wf sh] in *. andb W. apply bind_ok in E as (kv & _ & E). destruct (int_key kv) as [z|].
    + pose proof (IH m G z ctx s v r W0 U He E) as Hi. destruct (kget z (shk G cs)) as [sp|] eqn:Ek.
      * eapply inh_alt; [right; apply in_map_iff; exists (z, sp); split; [reflexivity | now apply kget_In] | exact Hi].
      * subst v. eapply inh_alt; [now left | constructor].
    + injection E as <- <-. eapply inh_alt; [now left | constructor].
  - (* CEnumSwitchStruct *) intros k cs IH m G ctx s v r W U He E. cbn [parse wf sh] in *. andb W. apply bind_ok in E as (kv & Ek & E). destruct kv as [| | | | | | | | | | | n z | | | |]; try discriminate.
    apply bind_ok in E as ([w r0] & T & E). injection E as <- <-. apply dgetr_some in Ek. destruct (vis_kept _ W) as (_ & Kn & Kh).
    destruct (He _ _ Ek) as [[C _] | (sp & Es & Hs)]; [congruence|]. rewrite Es. destruct sp; try constructor. inversion Hs as [|t' n' z' Hb| | | | | | | | | | | | | | | | | | |]; subst.
    destruct (vis_enum t) eqn:Ve; [|constructor]. eapply inh_alt; [apply in_map_iff; exists (n, z); split; [reflexivity | now apply members_in]|]. cbn [fst snd].
    pose proof (IH m G z ctx s w r0 W0 U He T) as Hi.
    apply kget_alt in Hi. pose proof (vis_enum_by_value _ _ _ _ Ve Hb) as Hv. apply isrec_inh; [|cbn [sget]; destruct (String.eqb_spec "_name" (lower n)) as [C|_]; [rewrite <- C in Hv; discriminate | easy]].
    pose proof (isrec_put [] [] (lower n) _ _ isrec_nil Hi) as R. unfold sput in R. rewrite Hv in R. exact R.
  - (* CIfDefault *) intros k c IH dv m G ctx s v r W U He E. cbn [parse wf sh] in *. andb W. apply bind_ok in E as (kv & _ & E). destruct (truthy kv).
    + eapply inh_alt; [now left | eapply IH; eassumption].
    + injection E as <- <-. destruct dv; try discriminate. eapply inh_alt; [right; now left | constructor; lia].
  - (* COpcode *) intros t m G ctx s v r W U He E. cbn [parse wf sh] in *. apply bind_ok in E as ([z r0] & T & E). destruct (by_value t z) as [mm|] eqn:Eb; [|discriminate]. injection E as <- <-.
    destruct (by_value_enum _ _ _ Eb) as (n & -> & _). now constructor.
  - (* CSwitchStruct *) intros k kc IHk t sw cs IH m G ctx s v r W U He E. cbn [parse wf sh] in *. andb W. apply bind_ok in E as ([kv r0] & Tk & E).
    destruct kv as [| | | | | | | | | | | n z | | | |]; try discriminate. apply bind_ok in E as ([w r1] & T & E).
    assert (Ev : v = VDict (dset (lower n) w [(k, VEnum n z)])) by congruence. subst v. clear E.
    pose proof (IHk m [] [] s _ _ ltac:(eassumption) U has_nil Tk) as Hk. destruct (sh [] kc) as [|t0| | | | | | | | | | | | | | |]; try constructor.
    inversion Hk as [|t' n' z' Hb| | | | | | | | | | | | | | | | | | |]; subst. destruct (vis_enum t0) eqn:Ve; [|constructor].
    eapply inh_alt; [apply in_map_iff; exists (n, z); split; [reflexivity | now apply members_in]|]. cbn [fst snd].
    assert (Hc : has [(k, (true, SEnum [(n, z)]))] [(k, VEnum n z)]).
    { intros j x. cbn [dget sget]. destruct (String.eqb j k); [|discriminate]. intros E. injection E as <-. right. eexists. split; [reflexivity | apply inh_member]. }
    assert (Ur : units m r0) by (eapply parse_units; eassumption).
    pose proof (IH m _ z _ r0 w r1 ltac:(eassumption) Ur Hc T) as Hi. apply kget_alt in Hi.
    pose proof (vis_enum_by_value _ _ _ _ Ve Hb) as Hv. destruct (vis_kept k ltac:(eassumption)) as (_ & Kn & Kh).
    apply isrec_inh; [|rewrite !name_free by assumption; easy]. apply isrec_put; [|exact Hi]. apply (isrec_put [] [] k _ (VEnum n z) isrec_nil). apply inh_member.
  - (* CProp *) intros hdr IHh t cs IH m G ctx s v r W U He E. cbn [parse wf sh] in *. andb W. apply bind_ok in E as ([h r0] & Th & E). destruct h as [| | | | | | | | | | d | | | | |]; try discriminate.
    apply bind_ok in E as (idv & Eid & E). apply bind_ok in E as (z & Ez & E). destruct (by_value t z) as [mm|] eqn:Eb; [|discriminate].
    pose proof (by_value_enum _ _ _ Eb) as (n & -> & _). destruct (find_case z cs) as [nc|] eqn:Ef; [|discriminate]. apply bind_ok in E as ([w r1] & T & E). injection E as <- <-.
    pose proof (IHh m G ctx s _ _ ltac:(eassumption) U He Th) as Hh. destruct (rec_of (sh G hdr)) as [fs|] eqn:Er; [|constructor]. apply rec_of_some in Er. rewrite Er in Hh.
    eapply inh_alt; [apply in_map_iff; exists (n, z); split; [reflexivity | now apply members_in]|]. cbn [fst snd].
    assert (Ur : units m r0) by (eapply parse_units; eassumption).
    pose proof (IH m G z ctx r0 w r1 ltac:(eassumption) Ur He T) as Hi. destruct (kget z (shk G cs)) as [sp|] eqn:Ek; [|apply kget_find in Ek; congruence].
    pose proof (vis_enum_by_value t z n z ltac:(eassumption) Eb) as Hv.
    apply isrec_name.
    + apply isrec_put; [|exact Hi]. apply isrec_put; [|apply inh_member]. apply isrec_del. now apply inh_isrec.
    + rewrite !dget_dset_neq by (try discriminate; intros C; rewrite <- C in Hv; discriminate). apply dget_ddel_none. exact (name_none _ _ Hh).
  - (* CSensorSetting *) intros hdr IHh t cs IH m G ctx s v r W U He E. cbn [parse wf sh] in *. andb W. apply bind_ok in E as ([h r0] & Th & E). destruct h as [| | | | | | | | | | d | | | | |]; try discriminate.
    apply bind_ok in E as (idv & Eid & E). destruct (setting_id t idv) as [idv' name] eqn:Es. apply bind_ok in E as (z & Ez & E).
    pose proof (IHh m G ctx s _ _ ltac:(eassumption) U He Th) as Hh. destruct (rec_of (sh G hdr)) as [fs|] eqn:Er; [|constructor]. apply rec_of_some in Er. rewrite Er in Hh.
    destruct (forallb _ (shk G cs)) eqn:Ea; [|constructor]. destruct (sget sid_name fs) as [s0|] eqn:E0; [|constructor].
    assert (Ur : units m r0) by (eapply parse_units; eassumption). destruct m; [discriminate|].
    assert (Hn : dget "_name" (ddel sid_name d) = None) by (apply dget_ddel_none; exact (name_none _ _ Hh)).
    assert (Rd : isrec (sdel sid_name fs) (ddel sid_name d)) by (apply isrec_del; now apply inh_isrec).
    assert (Hw : exists w, v = VDict (dset name w (dset sid_name idv' (ddel sid_name d))) /\
                 (find_case z cs = None /\ inh true bytelist w \/ exists sp, kget z (shk G cs) = Some sp /\ inh true sp w)).
    { destruct (find_case z cs) as [nc|] eqn:Ef.
      - apply bind_ok in E as ([w r1] & T & E). injection E as <- <-. exists w. split; [reflexivity|]. right. pose proof (IH false G z ctx r0 w r1 ltac:(eassumption) Ur He T) as Hi.
        destruct (kget z (shk G cs)) as [sp|] eqn:Ek; [eauto | apply kget_find in Ek; congruence].
      - injection E as <- <-. eexists. split; [reflexivity|]. left. split; [reflexivity | now apply bytelist_ok]. }
    destruct Hw as (w & -> & Hw). destruct (setting_shape _ _ _ _ _ Es Ez) as [(-> & -> & Eb) | (n & -> & -> & Eb)].
    + assert (Hb : inh true bytelist w).
      { destruct Hw as [[_ Hw] | (sp & Ek & _)]; [exact Hw|]. apply kget_In in Ek. rewrite forallb_forall in Ea. specialize (Ea _ Ek). cbn [fst] in Ea. rewrite Eb in Ea. discriminate. }
      eapply inh_alt; [now left|]. apply isrec_name.
      * apply isrec_put; [|exact Hb]. apply isrec_put; [exact Rd|]. apply dgetr_some in Eid. destruct (inh_get _ _ _ sid_name _ Hh ltac:(reflexivity) Eid) as (s1 & E1 & H1). congruence.
      * rewrite !dget_dset_neq by discriminate. exact Hn.
    + eapply inh_alt; [right; apply in_map_iff; exists (n, z); split; [reflexivity | now apply members_in]|]. cbn [fst snd].
      pose proof (vis_enum_by_value t z n z ltac:(eassumption) Eb) as Hv. apply isrec_name.
      * apply isrec_put; [|destruct Hw as [[Ef Hw] | (sp & Ek & Hw)]; [apply (kget_find _ _ G) in Ef; rewrite Ef; exact Hw | rewrite Ek; exact Hw]].
        apply isrec_put; [exact Rd | apply inh_member].
      * rewrite !dget_dset_neq by (try discriminate; intros C; rewrite <- C in Hv; discriminate). exact Hn.
  - (* CSensorData *) intros t cs IH m G ctx s v r W U He E. cbn [parse wf sh] in *. andb W. destruct s as [|b0 [|b1 s1]]; try discriminate. destruct m; [discriminate|].
    inversion_clear U as [|? ? U0 U']. inversion_clear U' as [|? ? U1 U2]. apply bind_ok in E as ([[[fmt len] pid] s2] & Eq & E).
    assert (Hq : 0 <= fmt <= 1 /\ 1 <= len <= 128 /\ 0 <= pid <= 65535 /\ bytes s2).
    { cbn [unit_ok] in U0, U1. unfold isbyte in *. pose proof (Z.div_pos b0 2 ltac:(lia) ltac:(lia)). assert (b0 / 2 < 128) by (apply Z.div_lt_upper_bound; lia).
      destruct (Z.odd b0).
      - destruct s1 as [|b2 s2']; [discriminate|]. injection Eq as <- <- <- <-. inversion_clear U2 as [|? ? U2' U3]. cbn [unit_ok] in U2'. unfold isbyte in U2'. repeat split; try lia. exact U3.
      - injection Eq as <- <- <- <-. pose proof (Z.mod_pos_bound (b0 / 2) 16 ltac:(lia)). pose proof (Z.mod_pos_bound (b0 / 32) 8 ltac:(lia)). repeat split; try lia. exact U2. }
    destruct Hq as (Hf & Hl & Hp & Hb2). destruct (setting_id t (VInt pid)) as [idv name] eqn:Es.
    destruct (forallb _ (shk G cs)) eqn:Ea; [|constructor].
    assert (Usub : bytes (firstn (Z.to_nat len) s2)) by (unfold bytes in *; rewrite <- (firstn_skipn (Z.to_nat len) s2) in Hb2; now apply Forall_app in Hb2).
    assert (Hw : exists w, v = VDict (dset name w [("format"%string, VInt fmt); ("length"%string, VInt len); (sid_name, idv)]) /\
                 (find_case pid cs = None /\ inh true bytelist w \/ exists sp, kget pid (shk G cs) = Some sp /\ inh true sp w)).
    { destruct (find_case pid cs) as [nc|] eqn:Ef.
      - apply bind_ok in E as ([w r1] & T & E). injection E as <- <-. exists w. split; [reflexivity|]. right. pose proof (IH false G pid ctx _ w r1 ltac:(eassumption) Usub He T) as Hi.
        destruct (kget pid (shk G cs)) as [sp|] eqn:Ek; [eauto | apply kget_find in Ek; congruence].
      - injection E as <- <-. eexists. split; [reflexivity|]. left. split; [reflexivity | now apply bytelist_ok]. }
    destruct Hw as (w & -> & Hw).
    assert (Rb : forall sp, inh true sp idv -> isrec (sput sid_name true sp [("format"%string, (true, SInt 0 1)); ("length"%string, (true, SInt 1 128))])
                                                 [("format"%string, VInt fmt); ("length"%string, VInt len); (sid_name, idv)]).
    { intros sp Hs. apply (isrec_put [("format"%string, (true, SInt 0 1)); ("length"%string, (true, SInt 1 128))] [("format"%string, VInt fmt); ("length"%string, VInt len)] sid_name sp idv); [|exact Hs].
      apply (isrec_put [("format"%string, (true, SInt 0 1))] [("format"%string, VInt fmt)] "length" (SInt 1 128) (VInt len)); [|constructor; lia].
      apply (isrec_put [] [] "format" (SInt 0 1) (VInt fmt)); [apply isrec_nil | constructor; lia]. }
    unfold setting_id in Es. cbn [int_key as_int] in Es. destruct (by_value t pid) as [mm|] eqn:Eb.
    + destruct (by_value_enum _ _ _ Eb) as (n & -> & _). injection Es as <- <-.
      eapply inh_alt; [right; apply in_map_iff; exists (n, pid); split; [reflexivity | now apply members_in]|]. cbn [fst snd].
      pose proof (vis_enum_by_value t pid n pid ltac:(eassumption) Eb) as Hv. apply isrec_name.
      * apply isrec_put; [apply Rb, inh_member|]. destruct Hw as [[Ef Hw] | (sp & Ek & Hw)]; [apply (kget_find _ _ G) in Ef; rewrite Ef; exact Hw | rewrite Ek; exact Hw].
      * rewrite dget_dset_neq by (intros C; rewrite <- C in Hv; discriminate). reflexivity.
    + injection Es as <- <-. assert (Hb : inh true bytelist w).
      { destruct Hw as [[_ Hw] | (sp & Ek & _)]; [exact Hw|]. apply kget_In in Ek. rewrite forallb_forall in Ea. specialize (Ea _ Ek). cbn [fst] in Ea. rewrite Eb in Ea. discriminate. }
      eapply inh_alt; [now left|]. apply isrec_name.
      * apply isrec_put; [|exact Hb]. apply Rb. constructor. lia.
      * rewrite dget_dset_neq by discriminate. reflexivity.
  - (* FNil *) intros m G obj s d r W U Ho E. cbn [parse_fields shf] in *. injection E as <- <-. exact Ho.
  - (* FCons *) intros k c IHc fs IH m G obj s d r W U Ho E. cbn [parse_fields wff shf] in *. andb W. apply bind_ok in E as ([v r0] & T & E).
    eapply IH; [eassumption | eapply parse_units; eassumption | apply isrec_put; [exact Ho | eapply IHc; [eassumption | eassumption | apply (rec_has _ _ Ho) | exact T]] | exact E].
  - (* FDefault *) intros k c IHc dv fs IH m G obj s d r W U Ho E. cbn [parse_fields wff shf] in *. andb W. apply bind_ok in E as ([v r0] & T & E).
    eapply IH; [eassumption | eapply parse_units; eassumption | apply isrec_put; [exact Ho | eapply IHc; [eassumption | eassumption | apply (rec_has _ _ Ho) | exact T]] | exact E].
  - (* FRebuild *) intros k e c IHc fs IH m G obj s d r W U Ho E. cbn [parse_fields wff shf] in *. andb W. apply bind_ok in E as ([v r0] & T & E).
    eapply IH; [eassumption | eapply parse_units; eassumption | apply isrec_put; [exact Ho | eapply IHc; [eassumption | eassumption | apply (rec_has _ _ Ho) | exact T]] | exact E].
  - (* FPad *) intros k n fs IH m G obj s d r W U Ho E. cbn [parse_fields wff shf] in *. apply bind_ok in E as ([a r0] & T & E). destruct (units_take _ _ _ _ _ T U) as [_ Ur].
    eapply IH; [eassumption | exact Ur | | exact E]. destruct k as [k|]; [|exact Ho]. apply isrec_put; [exact Ho | constructor].
  - (* FStopIf *) intros k fs IH m G obj s d r W U Ho E. cbn [parse_fields wff shf] in *. andb W. apply bind_ok in E as (v & _ & E).
    destruct (match num_of v with Some q => Qzero q | None => false end); [injection E as <- <-; now apply isrec_optional_l|]. apply isrec_optional_r. eapply IH; eassumption.
  - (* FBits *) intros n bs IHb fs IH m G obj s d r W U Ho E. cbn [parse_fields wff shf] in *. andb W. apply bind_ok in E as ([a r0] & T & E). apply bind_ok in E as ([bd r1] & Tb & E). destruct r1; [|discriminate].
    destruct (units_take _ _ _ _ _ T U) as [_ Ur]. eapply IH; [eassumption | exact Ur | | exact E].
    unfold flat_bits in *. destruct (bit_names bs) as [l|] eqn:El; [|discriminate].
    eapply copy_shape; [exact El | | eapply (IHb true []); [eassumption | apply bytes2bits_bits | apply isrec_nil | exact Tb] | now apply isrec_hide].
    eapply shf_true; [exact El | intros p []].
  - (* KNil *) intros m G z ctx s v r W U He E. cbn [parse_case shk] in *. now injection E as <- <-.
  - (* KCons *) intros n w c IHc cs IH m G z ctx s v r W U He E. cbn [parse_case wfk shk] in *. andb W. unfold kget. cbn [find fst snd]. destruct (z =? w); [eapply IHc; eassumption|].
    exact (IH m G z ctx s v r W0 U He E).
  - (* ANil *) discriminate.
  - (* ACons *) intros c IHc l IH m G ctx s v r W U He E. cbn [parse_alts wfa shl] in *. andb W. destruct (parse c ctx s) as [[v0 r0]| |] eqn:Ep; [| |discriminate].
    + injection E as <- <-. eapply inh_alt; [now left | eapply IHc; eassumption].
    + pose proof (IH m G ctx s v r W0 U He E) as Hi. inversion Hi as [| | | | | | | | | | | | | | | | | | |l' sp v' Hin Hsp|]; subst. eapply inh_alt; [right; exact Hin | exact Hsp].
Qed.
(** what a declaration decodes to has its shape *)
Theorem parse_shape c s v r : wf false c = true -> bytes s -> parse c [] s = Ok (v, r) -> inh true (sh [] c) v.
Proof. intros W U E. destruct parse_shape_mut as [H _]. exact (H c false [] [] s v r W U has_nil E). Qed.

(** * P_effects: building and the caller's object (C17). *)
From Verif Require Import PyVal Bits Float64 FloatX Adapters Construct Size Spec Master AdapterSpec AdapterProofs1 Access AccessProofs Deps Effects
  G_config G_time P_layout P_params.
Local Open Scope list_scope.
Local Open Scope Z_scope.

(** declarations in which neither key index lists nor times occur *)
Fixpoint pure (c : con) : bool :=
  match c with
  | CInt _ _ | CBytesInt _ _ | CBits _ _ | CFlag | CIeee _ | CBytes _ | CGreedyBytes | CGreedyString
  | CPaddedString _ | CPascalString | CPrefixedBytes | COpcode _ => true
  | CPrefixedArray c1 | CArray _ c1 | CGreedyRange c1 | CBitwise c1 | CBytewise c1 | CReversed _ c1
  | CNamed _ c1 | CIfDefault _ c1 _ => pure c1
  | CAdapt a c1 => match a with AKeyIndices | ATime => false | _ => pure c1 end
  | CStruct fs => pure_fields fs
  | CSelect l => pure_alts l
  | CSwitch _ cs | CEnumSwitchStruct _ cs | CSensorData _ cs => pure_cases cs
  | CSwitchStruct _ kc _ _ cs => pure kc && pure_cases cs
  | CProp hdr _ cs | CSensorSetting hdr _ cs => pure hdr && pure_cases cs
  end
with pure_fields (fs : fields) : bool :=
  match fs with
  | FNil => true
  | FCons _ c fs' | FDefault _ c _ fs' | FRebuild _ _ c fs' => pure c && pure_fields fs'
  | FPad _ _ fs' | FStopIf _ fs' => pure_fields fs'
  | FBits _ bs fs' => pure_fields bs && pure_fields fs'
  end
with pure_cases (cs : cases) : bool := match cs with KNil => true | KCons _ _ c cs' => pure c && pure_cases cs' end
with pure_alts (l : alts) : bool := match l with ANil => true | ACons c l' => pure c && pure_alts l' end.

Lemma after_list_id b f l : (forall x, f x = x) -> after_list b f l = l.
Proof. intros H. induction l as [|x l IH]; [reflexivity|]. cbn [after_list]. rewrite H, IH. now destruct (ok (b x)). Qed.
Lemma upd_id k f d : (forall x, f x = x) -> upd k f d = d.
Proof. intros H. unfold upd. destruct (dget k d) as [x|] eqn:E; [|reflexivity]. rewrite H. now apply dset_same. Qed.

Lemma after_pure :
  (forall c, pure c = true -> forall ctx v, after c ctx v = v) /\
  (forall fs, pure_fields fs = true -> forall ctx obj, after_fields fs ctx obj = obj) /\
  (forall cs, pure_cases cs = true -> forall z ctx v, after_case z cs ctx v = v) /\
  (forall l, pure_alts l = true -> forall ctx v, after_alts l ctx v = v).
Proof.
  apply con_mutind; cbn [pure pure_fields pure_cases pure_alts after after_fields after_case after_alts]; try reflexivity.
  - intros c IH H ctx v. destruct v; try reflexivity. rewrite after_list_id; auto.
  - intros e c IH H ctx v. destruct v; try reflexivity. rewrite after_list_id; auto.
  - intros c IH H ctx v. destruct v; try reflexivity. rewrite after_list_id; auto.
  - intros fs IH H ctx v. destruct v; try reflexivity. rewrite IH; auto.
  - auto.
  - auto.
  - auto.
  - intros a c IH H ctx v. destruct a; try discriminate H; cbn [returns_argument andb]; try reflexivity;
      match goal with |- (if ?b then _ else _) = _ => destruct b end; auto.
  - auto.
  - intros name c IH H ctx v. destruct v; auto. destruct (dget name d) as [x|] eqn:E; [|auto]. rewrite (IH H), dset_same; auto.
  - intros k cs IH H ctx v. destruct (dget k ctx); [|reflexivity]. destruct (int_key v0); auto.
  - intros k cs IH H ctx v. destruct (dget k ctx) as [kv|]; [|reflexivity]. destruct (int_key kv) as [z|]; [|reflexivity].
    destruct (find_case z cs) as [[n c]|]; [|reflexivity]. destruct v; try reflexivity. rewrite upd_id; auto.
  - intros k c IH d H ctx v. destruct (dget k ctx) as [kv|]; [|reflexivity]. destruct (truthy kv); auto.
  - intros k kc IHk t sw cs IH H ctx v. apply andb_prop in H as [_ H]. destruct v; try reflexivity.
    destruct (dget k d) as [kv|]; [|reflexivity]. destruct (int_key kv) as [z|]; [|reflexivity].
    destruct (by_value t z) as [[]|]; try reflexivity. set (a := match dget (lower name) d with Some _ => lower name | None => sw end).
    destruct (dget a d) as [x|] eqn:E; [|reflexivity]. cbv zeta. rewrite (IH H), dset_same by exact E.
    match goal with |- (if ?b then _ else _) = _ => destruct b end; reflexivity.
  - intros hdr IHh t cs IH H ctx v. apply andb_prop in H as [Hh H]. rewrite (IHh Hh). destruct (ok (build hdr ctx v)); [|reflexivity].
    destruct v; try reflexivity. destruct (dget "property_id" d) as [idv|]; [|reflexivity]. destruct (int_key idv) as [z|]; [|reflexivity].
    destruct (by_value t z) as [[]|]; try reflexivity. rewrite upd_id; auto.
  - intros hdr IHh t cs IH H ctx v. apply andb_prop in H as [Hh H]. rewrite (IHh Hh). destruct (ok (build hdr ctx v)); [|reflexivity].
    destruct v; try reflexivity. destruct (dget sid_name d) as [idv|]; [|reflexivity]. destruct (setting_id t idv) as [i nm].
    destruct (int_key i) as [z|]; [|reflexivity]. rewrite upd_id; auto.
  - intros t cs IH H ctx v. destruct v; try reflexivity. destruct (dget sid_name d) as [idv|]; [|reflexivity]. destruct (setting_id t idv) as [i nm].
    destruct (as_int idv) as [z|]; [|reflexivity]. rewrite upd_id; auto.
  - intros k c IHc fs IH H ctx obj. apply andb_prop in H as [Hc H]. destruct (dget k obj) as [x|] eqn:E; [|reflexivity].
    rewrite (IHc Hc), (dset_same k x obj E), (IH H). now destruct (ok _).
  - intros k c IHc d fs IH H ctx obj. apply andb_prop in H as [Hc H]. destruct (dget k obj) as [x|] eqn:E; [|now apply IH].
    destruct x; auto; rewrite (IHc Hc), (dset_same _ _ _ E), (IH H); now destruct (ok _).
  - intros k e c IHc fs IH H ctx obj. apply andb_prop in H as [Hc H]. destruct (eval e ctx); try reflexivity. rewrite (IH H). now destruct (ok _).
  - auto.
  - intros k fs IH H ctx obj. destruct (dget k ctx) as [x|]; [|reflexivity]. rewrite (IH H). now destruct (match num_of x with Some q => Qzero q | None => false end).
  - intros n bs IHb fs IH H ctx obj. apply andb_prop in H as [_ H]. rewrite (IH H). now destruct (ok _).
  - intros n z c IHc cs IH H w ctx v. apply andb_prop in H as [Hc H]. destruct (Z.eqb w z); auto.
  - intros c IHc l IH H ctx v. apply andb_prop in H as [Hc H]. rewrite (IHc Hc). rewrite (IH H). now destruct (build c ctx v).
Qed.

(** The messages that take a list of key indices, with the name of that list; and those that take a time. *)
Definition key_list_messages : list (string * string) :=
  [("CONFIG_NETKEY_LIST", "net_key_indices"); ("CONFIG_APPKEY_LIST", "app_key_indices");
   ("CONFIG_SIG_MODEL_APP_LIST", "app key indices"); ("CONFIG_VENDOR_MODEL_APP_LIST", "app_key_indices")]%string.
Definition time_messages : list string := ["TIME_SET"; "TIME_STATUS"]%string.
Definition special : list string := map fst key_list_messages ++ time_messages.

Lemma special_table : forallb (fun p => pure (snd p) || existsb (String.eqb (fst (fst p))) special) params = true.
Proof. vm_compute. reflexivity. Qed.
Lemma special_pure n z c : In (n, z, c) params -> ~ In n special -> pure c = true.
Proof.
  pose proof special_table as T. revert T. generalize params. intros l T Hin Hn. rewrite forallb_forall in T. specialize (T _ Hin). cbn [fst snd] in T.
  apply orb_prop in T as [T|T]; [exact T|]. apply existsb_exists in T as (m & Hm & E). apply String.eqb_eq in E. now subst m.
Qed.
(** no opcode is called "opcode" or "params" *)
Lemma names_free : forallb (fun p => forallb (fun q => negb (String.eqb (lower (fst q)) "opcode") && negb (String.eqb (lower (fst q)) "params")) (fst p)) access_table = true.
Proof. vm_compute. reflexivity. Qed.
Lemma name_free t c n z : family t c -> member t n z -> lower n <> "opcode"%string /\ lower n <> "params"%string.
Proof.
  unfold family. pose proof names_free as T. revert T. generalize access_table. intros l T Hf Hm. rewrite forallb_forall in T. specialize (T _ Hf). cbn [fst] in T.
  rewrite forallb_forall in T. apply member_in in Hm. specialize (T _ Hm). cbn [fst] in T. apply andb_prop in T as [A B].
  split; intros E; rewrite E in *; discriminate.
Qed.
(** an opcode of a family and the declaration of its parameters *)
Lemma case_in t c n z : family t c -> member t n z -> forall cs, c = CSwitchStruct "opcode" (COpcode t) t "params" cs ->
  find_case z cs = None \/ exists ct, find_case z cs = Some (n, ct) /\ In (n, z, ct) params.
Proof.
  intros Hf Hm cs ->. destruct (find_case z cs) as [[m ct]|] eqn:F; [right|now left]. exists ct.
  assert (L : In (m, z, ct) (case_list cs)).
  { clear - F. induction cs as [|n' z' c' cs IH]; cbn [find_case case_list] in *; [discriminate F|]. destruct (Z.eqb_spec z z'); [|right; auto]. injection F as -> ->. subst. now left. }
  assert (P : In (m, z, ct) params) by (unfold params; revert Hf; unfold family; generalize access_table; intros tb Hf; apply in_flat_map; eexists; split; [exact Hf|exact L]).
  destruct (params_family _ _ _ P) as (t' & cs' & Hf' & Hm' & F' & _).
  assert (A : access_lookup z = Some (VEnum n z, CSwitchStruct "opcode" (COpcode t) t "params" cs)) by (apply access_lookup_spec; eauto).
  assert (A' : access_lookup z = Some (VEnum m z, CSwitchStruct "opcode" (COpcode t') t' "params" cs')) by (apply access_lookup_spec; eauto).
  rewrite A in A'. assert (n = m) as <- by congruence. auto.
Qed.
Lemma after_case_none z cs ctx v : find_case z cs = None -> after_case z cs ctx v = v.
Proof. induction cs as [|n w c cs IH]; cbn [find_case after_case]; [reflexivity|]. destruct (Z.eqb z w); [discriminate|exact IH]. Qed.
Lemma after_case_of z cs m c ctx v : find_case z cs = Some (m, c) -> after_case z cs ctx v = after c ctx v.
Proof. induction cs as [|n w c' cs IH]; cbn [find_case after_case]; [discriminate|]. destruct (Z.eqb z w); [|exact IH]. intros [= -> ->]. reflexivity. Qed.

(** A message of a family: the parameters are handed to the declaration of the message, and nothing else is touched. *)
Definition given (n : string) (d : dict) : option (string * val) :=
  match dget (lower n) d with Some x => Some (lower n, x) | None => match dget "params" d with Some x => Some ("params"%string, x) | None => None end end.
Section Family.
Variables (t : enum) (cs : cases) (n : string) (z : Z).
Let c := CSwitchStruct "opcode" (COpcode t) t "params" cs.
Hypotheses (Hf : family t c) (Hm : member t n z).
Let ctx' x := [("opcode"%string, VEnum n z); ("params"%string, x)].
Lemma opcode_ok x : exists o, build (COpcode t) (ctx' x) (VEnum n z) = Ok o.
Proof.
  destruct (legal_opcode_bytes z (family_legal _ _ _ _ Hf Hm)) as (o & Ho). exists o. cbn [build]. unfold as_intr. cbn [as_int bind].
  rewrite (opcode_bytes_build _ _ Ho). cbn [bind]. now rewrite (member_by_value _ _ _ Hm).
Qed.
Lemma family_after d op : dget "opcode" d = Some op -> int_key op = Some z ->
  after c [] (VDict d) = match given n d with Some (k, x) => VDict (dset k (after_case z cs (ctx' x) x) d) | None => VDict d end.
Proof.
  intros Ho Hz. unfold c. cbn [after]. rewrite Ho, Hz, (member_by_value _ _ _ Hm). unfold given.
  destruct (dget (lower n) d) as [x|] eqn:E.
  - rewrite E. cbv zeta. destruct (opcode_ok x) as (o & B). unfold ctx' in B. rewrite B. reflexivity.
  - destruct (dget "params" d) as [x|]; [|reflexivity]. cbv zeta. destruct (opcode_ok x) as (o & B). unfold ctx' in B. rewrite B. reflexivity.
Qed.
Lemma family_build d op : dget "opcode" d = Some op -> int_key op = Some z ->
  build_msg c (VDict d) = match given n d with
    | Some (k, x) => let* a := build (COpcode t) (ctx' x) (VEnum n z) in let* b := build_case z cs (ctx' x) x in Ok (a ++ b)
    | None => Err EKey end.
Proof.
  intros Ho Hz. unfold build_msg, c. cbn [build]. unfold dgetr at 1. rewrite Ho. cbn [bind]. rewrite Hz, (member_by_value _ _ _ Hm). unfold given, dgetr.
  destruct (dget (lower n) d) as [x|]; cbn [bind]; [reflexivity|]. destruct (dget "params" d); reflexivity.
Qed.
Lemma given_dset k x y d : given n d = Some (k, x) -> given n (dset k y d) = Some (k, y) /\ dget "opcode" (dset k y d) = dget "opcode" d.
Proof.
  destruct (name_free _ _ _ _ Hf Hm) as [N1 N2]. unfold given. destruct (dget (lower n) d) as [u|] eqn:E.
  - intros [= <- <-]. rewrite dget_dset_eq. split; [reflexivity|]. apply dget_dset_neq. auto.
  - destruct (dget "params" d) as [u|] eqn:E2; [|discriminate]. intros [= <- <-]. rewrite dget_dset_neq, E, dget_dset_eq by auto. split; [reflexivity|]. now apply dget_dset_neq.
Qed.
End Family.

(** *** Times *)
Lemma time_encode_after v : time_encode (time_after v) = time_encode v.
Proof.
  destruct v; try reflexivity. unfold time_after.
  destruct (dget "date" d) as [dt|] eqn:Ed; [|reflexivity]. destruct (dget "uncertainty" d) as [u|] eqn:Eu; [|reflexivity].
  match goal with |- context [if ?b then _ else _] => destruct b end; [|reflexivity].
  set (d1 := match u with VFloat x => dset "uncertainty" (VTimedelta (us_of_float x)) d | _ => d end). cbv zeta.
  assert (H1 : time_encode (VDict d1) = time_encode (VDict d)).
  { subst d1. destruct u; try reflexivity. unfold time_encode, dgetr. rewrite dget_dset_eq, !dget_dset_neq by discriminate. rewrite Eu. reflexivity. }
  destruct (dget "tai_utc_delta" d1) as [y|] eqn:Ey; [|exact H1]. destruct (as_int y) as [s|] eqn:Es; [|exact H1].
  rewrite <- H1. unfold time_encode, dgetr. rewrite dget_dset_eq, !dget_dset_neq by discriminate. rewrite Ey.
  assert (Hy : delta_us y = Ok (s * 1000000)) by (unfold delta_us; destruct y; try discriminate Es; now rewrite Es). cbn [bind]. rewrite Hy. reflexivity.
Qed.
Lemma time_cases n z c : In (n, z, c) params -> In n time_messages -> c = CAdapt ATime time_Time.
Proof.
  assert (U : In (n, z, c) params -> In n time_messages -> In (n, z, c) [("TIME_SET"%string, 92, time_TimeSet); ("TIME_STATUS"%string, 93, time_TimeStatus)]).
  { clear. assert (T : filter (fun p => existsb (String.eqb (fst (fst p))) time_messages) params = [("TIME_SET"%string, 92, time_TimeSet); ("TIME_STATUS"%string, 93, time_TimeStatus)]) by (vm_compute; reflexivity).
    revert T. generalize params. intros l <- H1 H2. apply filter_In. split; [exact H1|]. cbn [fst]. apply existsb_exists. exists n. split; [exact H2|apply String.eqb_refl]. }
  intros H1 H2. destruct (U H1 H2) as [[= _ _ <-] | [[= _ _ <-] | []]]; reflexivity.
Qed.

(** ** C17 *)
(** the opcode [v] carries is that of the message called [n] *)
Definition says (v : val) (n : string) : Prop :=
  exists d op t c z, v = VDict d /\ dget "opcode" d = Some op /\ family t c /\ member t n z /\ (int_key op = Some z \/ op = VStr (cps n)).
Definition by_name (v : val) : Prop := exists d s, v = VDict d /\ dget "opcode" d = Some (VStr s).

Lemma find_pure t cs n z : family t (CSwitchStruct "opcode" (COpcode t) t "params" cs) -> member t n z -> ~ In n special ->
  forall ctx x, after_case z cs ctx x = x.
Proof.
  intros Hf Hm Hn ctx x. destruct (case_in _ _ _ _ Hf Hm _ eq_refl) as [F | (ct & F & P)]; [now apply after_case_none|].
  rewrite (after_case_of _ _ _ _ _ _ F). now apply (proj1 after_pure), (special_pure _ _ _ P).
Qed.
Lemma dset_given n d k x : given n d = Some (k, x) -> dset k x d = d.
Proof.
  unfold given. destruct (dget (lower n) d) as [u|] eqn:E; [intros [= <- <-]; now apply dset_same|].
  destruct (dget "params" d) as [u|] eqn:E2; [|discriminate]. intros [= <- <-]. now apply dset_same.
Qed.
Lemma family_unchanged t c n z d op : family t c -> member t n z -> ~ In n special -> dget "opcode" d = Some op -> int_key op = Some z ->
  after c [] (VDict d) = VDict d.
Proof.
  intros Hf Hm Hn Ho Hz. destruct (access_shape _ _ Hf) as (cs & ->). rewrite (family_after _ _ _ _ Hf Hm _ _ Ho Hz).
  destruct (given n d) as [[k x]|] eqn:G; [|reflexivity]. rewrite (find_pure _ _ _ _ Hf Hm Hn). now rewrite (dset_given _ _ _ _ G).
Qed.

(** Whatever is passed, and whether it can be built or not, nothing in it changes, except: the messages that
    carry key index lists or times, and an opcode given as a string. *)
Theorem C17_unchanged : forall v, ~ by_name v -> (forall n, says v n -> ~ In n special) -> access_after v = v.
Proof.
  intros v Hs H. destruct v; try reflexivity. unfold access_after. destruct (dget "opcode" d) as [op|] eqn:Ho; [|reflexivity].
  assert (E : forall r, match op with VStr s => r s | _ => match int_key op with Some z => match access_lookup z with Some (_, c) => after c [] (VDict d) | None => VDict d end | None => VDict d end end
     = match int_key op with Some z => match access_lookup z with Some (_, c) => after c [] (VDict d) | None => VDict d end | None => VDict d end).
  { intros r. destruct op; try reflexivity. elim Hs. exists d, s. auto. }
  rewrite (E (fun s => _)). destruct (int_key op) as [z|] eqn:Hz; [|reflexivity]. destruct (access_lookup z) as [[m c]|] eqn:L; [|reflexivity].
  apply access_lookup_spec in L as (t & n & Hf & Hm & ->). eapply family_unchanged; eauto. apply H. exists d, op, t, c, z. auto 6.
Qed.
(** An opcode given by name is replaced by the member of the enumeration, and nothing else changes. *)
Theorem C17_opcode_by_name : forall d n z t c, family t c -> member t n z -> ~ In n special -> dget "opcode" d = Some (VStr (cps n)) ->
  access_after (VDict d) = VDict (dset "opcode" (VEnum n z) d).
Proof.
  intros d n z t c Hf Hm Hn Ho. unfold access_after. rewrite Ho.
  assert (A : access_by_name (cps n) = Some (VEnum n z, c)) by (eapply access_by_name_spec; eauto). rewrite A.
  eapply family_unchanged; eauto. apply dget_dset_eq. reflexivity.
Qed.
Print Assumptions C17_unchanged.
Print Assumptions C17_opcode_by_name.

(** A time: in the parameters a float uncertainty and an int TAI-UTC delta may become timedelta objects of the
    same length (microseconds); nothing else changes. *)
Definition same_but_units (x x' : dict) : Prop := forall j, dget j x' = dget j x
  \/ (j = "uncertainty"%string /\ exists q, dget j x = Some (VFloat q) /\ dget j x' = Some (VTimedelta (us_of_float q)))
  \/ (j = "tai_utc_delta"%string /\ exists y s, dget j x = Some y /\ as_int y = Some s /\ dget j x' = Some (VTimedelta (s * 1000000))).
Lemma time_after_units x : exists x', time_after (VDict x) = VDict x' /\ same_but_units x x'.
Proof.
  assert (R : exists x', VDict x = VDict x' /\ same_but_units x x') by (exists x; split; [reflexivity|intros j; now left]).
  unfold time_after. destruct (dget "date" x) as [dt|]; [|exact R]. destruct (dget "uncertainty" x) as [u|] eqn:Eu; [|exact R].
  match goal with |- context [if ?b then _ else _] => destruct b end; [|exact R]. clear R.
  set (d1 := match u with VFloat q => dset "uncertainty" (VTimedelta (us_of_float q)) x | _ => x end). cbv zeta.
  assert (H1 : same_but_units x d1 /\ dget "tai_utc_delta" d1 = dget "tai_utc_delta" x).
  { subst d1. destruct u; try (split; [intros j; now left|reflexivity]). split; [|apply dget_dset_neq; discriminate].
    intros j. destruct (string_dec j "uncertainty") as [->|N]; [right; left; split; [reflexivity|]; exists q; rewrite dget_dset_eq; auto|left; now apply dget_dset_neq]. }
  destruct H1 as [H1 Et]. destruct (dget "tai_utc_delta" d1) as [y|] eqn:Ey; [|exists d1; auto]. destruct (as_int y) as [s|] eqn:Es; [|exists d1; auto].
  exists (dset "tai_utc_delta" (VTimedelta (s * 1000000)) d1). split; [reflexivity|]. intros j. destruct (string_dec j "tai_utc_delta") as [->|N].
  - right. right. split; [reflexivity|]. exists y, s. rewrite dget_dset_eq. auto.
  - rewrite dget_dset_neq by exact N. apply H1.
Qed.
Theorem C17_time : forall d n z c k x, In (n, z, c) params -> In n time_messages -> dget "opcode" d = Some (VEnum n z) ->
  given n d = Some (k, VDict x) -> exists x', access_after (VDict d) = VDict (dset k (VDict x') d) /\ same_but_units x x'.
Proof.
  intros d n z c k x P Hn Ho G. destruct (params_family _ _ _ P) as (t & cs & Hf & Hm & F & _). unfold access_after. rewrite Ho. change (int_key (VEnum n z)) with (Some z). cbv iota.
  assert (A : access_lookup z = Some (VEnum n z, CSwitchStruct "opcode" (COpcode t) t "params" cs)) by (apply access_lookup_spec; eauto). rewrite A.
  rewrite (family_after _ _ _ _ Hf Hm d (VEnum n z)), G by (auto; reflexivity).
  rewrite (after_case_of _ _ _ _ _ _ F), (time_cases _ _ _ P Hn). destruct (time_after_units x) as (x' & E & S). exists x'. split; [|exact S].
  change (after (CAdapt ATime time_Time) [("opcode"%string, VEnum n z); ("params"%string, VDict x)] (VDict x)) with (time_after (VDict x)). now rewrite E.
Qed.
Print Assumptions C17_time.

(** Building the object again gives the same octets (or the same failure), for every message but the lists of key indices. *)
Lemma special_cases n : In n special -> In n (map fst key_list_messages) \/ In n time_messages.
Proof. apply in_app_or. Qed.
Lemma family_again t c n z d op : family t c -> member t n z -> ~ In n (map fst key_list_messages) -> dget "opcode" d = Some op -> int_key op = Some z ->
  exists d', after c [] (VDict d) = VDict d' /\ dget "opcode" d' = Some op /\ build_msg c (VDict d') = build_msg c (VDict d).
Proof.
  intros Hf Hm Hn Ho Hz. destruct (in_dec string_dec n time_messages) as [Ht|Ht].
  2: { exists d. split; [|auto]. eapply family_unchanged; eauto. intros K. destruct (special_cases _ K); auto. }
  destruct (access_shape _ _ Hf) as (cs & ->). rewrite (family_after _ _ _ _ Hf Hm _ _ Ho Hz), (family_build _ _ _ _ Hm _ _ Ho Hz).
  destruct (given n d) as [[k x]|] eqn:G; [|exists d; rewrite (family_build _ _ _ _ Hm _ _ Ho Hz), G; auto].
  destruct (given_dset _ _ _ _ Hf Hm k x (after_case z cs [("opcode"%string, VEnum n z); ("params"%string, x)] x) d G) as [G' Ho'].
  eexists. split; [reflexivity|]. rewrite Ho'. split; [exact Ho|]. rewrite (family_build _ _ _ _ Hm _ op), G' by (rewrite ?Ho'; auto).
  destruct (case_in _ _ _ _ Hf Hm _ eq_refl) as [F | (ct & F & P)].
  - rewrite (after_case_none _ _ _ _ F). reflexivity.
  - rewrite !(after_case_of _ _ _ _ _ _ F), !(build_case_of _ _ _ _ _ _ F), (time_cases _ _ _ P Ht).
    change (after (CAdapt ATime time_Time) [("opcode"%string, VEnum n z); ("params"%string, x)] x) with (time_after x).
    apply bind_ext; [reflexivity|]. intros a. apply bind_ext; [|reflexivity].
    change (build (CAdapt ATime time_Time) [("opcode"%string, VEnum n z); ("params"%string, time_after x)] (time_after x)) with
      (let* w := time_encode (time_after x) in build time_Time [("opcode"%string, VEnum n z); ("params"%string, time_after x)] w).
    change (build (CAdapt ATime time_Time) [("opcode"%string, VEnum n z); ("params"%string, x)] x) with
      (let* w := time_encode x in build time_Time [("opcode"%string, VEnum n z); ("params"%string, x)] w).
    rewrite time_encode_after. apply bind_ext; [reflexivity|]. intros w. apply build_agree. apply agree_nil.
Qed.
Theorem C17_twice : forall v, (forall n, says v n -> ~ In n (map fst key_list_messages)) -> access_build (access_after v) = access_build v.
Proof.
  intros v H. destruct v; try reflexivity. unfold access_after. destruct (dget "opcode" d) as [op|] eqn:Ho; [|reflexivity].
  assert (Num : forall r, match op with VStr _ => False | _ => True end ->
    match op with VStr s => r s | _ => match int_key op with Some z => match access_lookup z with Some (_, c) => after c [] (VDict d) | None => VDict d end | None => VDict d end end
     = match int_key op with Some z => match access_lookup z with Some (_, c) => after c [] (VDict d) | None => VDict d end | None => VDict d end)
    by (intros r; destruct op; (reflexivity || intros [])).
  assert (Bld : forall d', dget "opcode" d' = Some op -> match op with VStr _ => False | _ => True end -> forall z c n, int_key op = Some z -> access_lookup z = Some (VEnum n z, c) -> access_build (VDict d') = build_msg c (VDict d')).
  { intros d' Hd' Hop z c n Hz L. unfold access_build, dgetr. rewrite Hd'. cbn [bind]. destruct op; try contradiction; rewrite Hz, L; reflexivity. }
  destruct (match op with VStr _ => true | _ => false end) eqn:Hop.
  - destruct op; try discriminate Hop. clear Num Bld. destruct (access_by_name s) as [[m c]|] eqn:A; [|reflexivity].
    pose proof A as A0. apply access_by_name_inv in A as (t & n & z & Hf & Hm & -> & ->).
    destruct (family_again t c n z (dset "opcode" (VEnum n z) d) (VEnum n z) Hf Hm) as (d' & E & Ho' & B).
    { apply H. exists d, (VStr (cps n)), t, c, z. auto 7. }
    { apply dget_dset_eq. } { reflexivity. }
    rewrite E, (access_build_family t c n z d' (VEnum n z) Hf Hm Ho' eq_refl), B, (access_build_named _ _ _ _ _ Hf Hm Ho).
    symmetry. eapply (access_build_family t c n z); eauto using dget_dset_eq.
  - assert (Hn : match op with VStr _ => False | _ => True end) by (destruct op; (exact I || discriminate Hop)).
    rewrite (Num (fun s => _) Hn). destruct (int_key op) as [z|] eqn:Hz; [|reflexivity]. destruct (access_lookup z) as [[m c]|] eqn:L; [|reflexivity].
    pose proof L as L0. apply access_lookup_spec in L as (t & n & Hf & Hm & ->).
    destruct (family_again t c n z d op Hf Hm) as (d' & E & Ho' & B); auto.
    { apply H. exists d, op, t, c, z. auto 7. }
    rewrite E, (Bld d' Ho' Hn _ _ _ eq_refl L0), B. symmetry. apply (Bld d Ho Hn _ _ _ eq_refl L0).
Qed.
Print Assumptions C17_twice.

(** *** Key index lists: the first build empties the list *)
Inductive plain_bits (f : string) : fields -> Prop :=
| pb_nil : plain_bits f FNil
| pb_pad n fs : plain_bits f fs -> plain_bits f (FPad None n fs)
| pb_cons k n sg fs : k <> f -> plain_bits f fs -> plain_bits f (FCons k (CBits n sg) fs).
Inductive ends (f : string) : fields -> Prop :=
| ends_here : ends f (FCons f config_KeyIndices FNil)
| ends_cons k c fs : k <> f -> deps c = [] -> pure c = true -> ends f fs -> ends f (FCons k c fs)
| ends_bits n bs fs : plain_bits f bs -> ends f fs -> ends f (FBits n bs fs).
Definition but (f : string) (a b : dict) : Prop := forall k, k <> f -> dget k a = dget k b.
Lemma but_dset f k x a b : but f a b -> but f (dset k x a) (dset k x b).
Proof. intros H j Hj. destruct (string_dec j k) as [->|N]; [now rewrite !dget_dset_eq|]. rewrite !dget_dset_neq by exact N. now apply H. Qed.
Lemma bits_but f bs : plain_bits f bs -> forall c1 c2 a b, but f a b -> build_fields bs c1 a = build_fields bs c2 b.
Proof.
  induction 1 as [|n fs _ IH|k n sg fs N _ IH]; intros c1 c2 a b H; cbn [build_fields]; [reflexivity| |].
  - apply bind_ext; [now apply IH|reflexivity].
  - unfold dgetr. rewrite (H k N). apply bind_ext; [reflexivity|]. intros x. apply bind_ext; [reflexivity|]. intros y. apply bind_ext; [now apply IH|reflexivity].
Qed.
Lemma pair_items_nonempty l : l <> [] -> pair_items l <> [].
Proof. destruct l as [|a [|b l]]; [congruence|discriminate..]. Qed.
Lemma isort_nonempty l : l <> [] -> isort l <> [].
Proof.
  intros H E. destruct l as [|x l]; [congruence|]. cbn [isort] in E. destruct (isort l) as [|y r]; cbn [insert_by] in E; [discriminate|].
  match type of E with context [if ?b then _ else _] => destruct b; discriminate E end.
Qed.
Lemma keys_build ctx l t : build config_KeyIndices ctx (VList l) = Ok t -> l <> [] -> t <> [] /\ key_indices_after (VList l) = VList [].
Proof.
  intros H Hl. unfold config_KeyIndices in H. match type of H with build (CAdapt AKeyIndices ?g) _ _ = _ => change (bind (encode AKeyIndices (VList l)) (build g ctx) = Ok t) in H end. cbn [encode] in H. unfold key_indices_encode in H. unfold key_indices_after.
  destruct (forallb is_intlike l); [|discriminate H]. split; [|reflexivity]. cbn [bind] in H.
  pose proof (pair_items_nonempty _ (isort_nonempty _ Hl)) as N. destruct (pair_items (isort l)) as [|x r]; [congruence|].
  match type of H with build (CGreedyRange ?e) _ _ = _ => change (build_list (build e ctx) (x :: r) = Ok t) in H end.
  cbn [build_list] in H. apply bind_ok in H as (a & Ha & H). apply bind_ok in H as (b & Hb & H). injection H as <-.
  assert (La : (2 <= length a)%nat).
  { match type of Ha with build (CSelect (ACons ?c1 (ACons ?c2 ANil))) _ _ = _ =>
      change (match build c1 ctx x with Err _ => match build c2 ctx x with Err _ => Err EOther | r => r end | r => r end = Ok a) in Ha;
      assert (L1 : forall s, build c1 ctx x = Ok s -> length s = 3%nat) by (intros s; apply build_len; reflexivity);
      assert (L2 : forall s, build c2 ctx x = Ok s -> length s = 2%nat) by (intros s; apply build_len; reflexivity);
      destruct (build c1 ctx x) as [s1| |]; [injection Ha as ->; rewrite (L1 _ eq_refl); lia| |discriminate Ha];
      destruct (build c2 ctx x) as [s2| |]; [injection Ha as ->; rewrite (L2 _ eq_refl); lia|discriminate Ha|discriminate Ha] end. }
  destruct a; cbn [length app] in *; [lia|discriminate].
Qed.
Lemma ends_after f fs : ends f fs -> forall ctx ctx2 obj l s, but f ctx ctx2 -> dget f obj = Some (VList l) -> l <> [] -> build_fields fs ctx obj = Ok s ->
  after_fields fs ctx obj = dset f (VList []) obj /\
  exists s' t, s = s' ++ t /\ t <> [] /\ build_fields fs ctx2 (dset f (VList []) obj) = Ok s'.
Proof.
  induction 1 as [|k c fs N D P _ IH|n bs fs B _ IH]; intros ctx ctx2 obj l s Hc Hl Nl Hb; cbn [build_fields after_fields] in *.
  - unfold dgetr in *. rewrite Hl in *. rewrite dget_dset_eq. cbn [bind] in *. apply bind_ok in Hb as (t & Ht & Hb). injection Hb as <-.
    destruct (keys_build _ _ _ Ht Nl) as [Nt A]. rewrite Ht. cbn [ok]. change (after config_KeyIndices ctx (VList l)) with (key_indices_after (VList l)). rewrite A.
    split; [reflexivity|]. exists [], t. rewrite app_nil_r. auto.
  - unfold dgetr in *. destruct (dget k obj) as [x|] eqn:Ex; [|discriminate Hb]. cbn [bind] in Hb. apply bind_ok in Hb as (a & Ha & Hb). apply bind_ok in Hb as (b & Hb & E). injection E as <-.
    rewrite Ha. cbn [ok]. rewrite (proj1 after_pure c P), (dset_same k x obj Ex).
    destruct (IH (dset k x ctx) (dset k x ctx2) obj l b) as (A & s' & t & -> & Nt & B); auto using but_dset. split; [exact A|].
    exists (a ++ s'), t. rewrite app_assoc. split; [reflexivity|]. split; [exact Nt|]. rewrite dget_dset_neq, Ex by exact N. cbn [bind].
    rewrite (build_agree c ctx2 ctx x), Ha by (rewrite D; apply agree_nil). cbn [bind]. rewrite B. reflexivity.
  - rewrite (bits_but f bs B ctx ctx2 ctx ctx2 Hc) in *. destruct (build_fields bs ctx2 ctx2) as [bits| |]; cbn [bind] in *; [|discriminate Hb..]. cbn [ok].
    destruct (bits2bytes bits) as [a [|]]; [|discriminate Hb]. apply bind_ok in Hb as (b & Hb & E). injection E as <-.
    destruct (IH ctx ctx2 obj l b) as (A & s' & t & -> & Nt & B'); auto. split; [exact A|]. exists (rev a ++ s'), t. rewrite app_assoc. rewrite B'. auto.
Qed.
Lemma key_list_ends n z c f : In (n, z, c) params -> In (n, f) key_list_messages -> exists fs, c = CStruct fs /\ ends f fs /\ deps c = [].
Proof.
  intros P K.
  assert (U : In (n, z, c) [("CONFIG_NETKEY_LIST", 32835, config_ConfigNetKeyList); ("CONFIG_APPKEY_LIST", 32770, config_ConfigAppKeyList);
     ("CONFIG_SIG_MODEL_APP_LIST", 32844, config_ConfigSIGModelAppList); ("CONFIG_VENDOR_MODEL_APP_LIST", 32846, config_ConfigVendorModelAppList)]%string).
  { assert (T : filter (fun p => existsb (String.eqb (fst (fst p))) (map fst key_list_messages)) params = [("CONFIG_APPKEY_LIST", 32770, config_ConfigAppKeyList);
      ("CONFIG_NETKEY_LIST", 32835, config_ConfigNetKeyList); ("CONFIG_SIG_MODEL_APP_LIST", 32844, config_ConfigSIGModelAppList); ("CONFIG_VENDOR_MODEL_APP_LIST", 32846, config_ConfigVendorModelAppList)]%string) by (vm_compute; reflexivity).
    revert P T. generalize params. intros ps P T.
    assert (In (n, z, c) (filter (fun p => existsb (String.eqb (fst (fst p))) (map fst key_list_messages)) ps)).
    { apply filter_In. split; [exact P|]. cbn [fst]. apply existsb_exists. exists n. split; [|apply String.eqb_refl]. apply (in_map fst _ (n, f)). exact K. }
    rewrite T in H. cbn [In] in *. tauto. }
  assert (E : c = CStruct (struct_fields c) /\ ends f (struct_fields c) /\ deps c = []); [|exists (struct_fields c); exact E].
  destruct U as [E|[E|[E|[E|[]]]]]; injection E as <- <- <-; cbn [key_list_messages In] in K; repeat (destruct K as [K|K]; [first [discriminate K|injection K as <-]|]); try destruct K;
    (split; [reflexivity|split; [|reflexivity]]); cbn [struct_fields config_ConfigNetKeyList config_ConfigAppKeyList config_ConfigSIGModelAppList config_ConfigVendorModelAppList config_ConfigSIGModelAppGet config_ConfigVendorModelAppGet fapp];
    repeat first [apply ends_here | apply ends_cons; [discriminate|reflexivity|reflexivity|] | apply ends_bits; [repeat first [apply pb_nil|apply pb_pad|apply pb_cons; [discriminate|]]|]].
Qed.
(** Sending a message with a list of key indices, of any length, leaves the caller with an empty list; sending
    the same object again succeeds, with the same octets except for the key indices, which are all missing. *)
Theorem C17_key_list_refuted : forall d n z c k x f l s, In (n, z, c) params -> In (n, f) key_list_messages ->
  dget "opcode" d = Some (VEnum n z) -> given n d = Some (k, VDict x) -> dget f x = Some (VList l) -> l <> [] -> access_build (VDict d) = Ok s ->
  access_after (VDict d) = VDict (dset k (VDict (dset f (VList []) x)) d) /\
  exists s' t, s = s' ++ t /\ t <> [] /\ access_build (access_after (VDict d)) = Ok s'.
Proof.
  intros d n z c k x f l s P K Ho G Hl Nl B. destruct (params_family _ _ _ P) as (t & cs & Hf & Hm & F & _).
  destruct (key_list_ends _ _ _ _ P K) as (fs & -> & En & D).
  rewrite (access_build_family _ _ _ _ _ _ Hf Hm Ho eq_refl), (family_build _ _ _ _ Hm _ _ Ho eq_refl), G, (build_case_of _ _ _ _ _ _ F) in B.
  apply bind_ok in B as (a & Ha & B). apply bind_ok in B as (b & Hb & B). injection B as <-. cbn [build as_dict bind] in Hb.
  destruct (ends_after _ _ En x (dset f (VList []) x) x l b) as (A & s' & u & -> & Nu & B'); auto.
  { intros j Hj. now rewrite dget_dset_neq. }
  assert (E : access_after (VDict d) = VDict (dset k (VDict (dset f (VList []) x)) d)).
  { unfold access_after. rewrite Ho. change (int_key (VEnum n z)) with (Some z). cbv iota.
    assert (L : access_lookup z = Some (VEnum n z, CSwitchStruct "opcode" (COpcode t) t "params" cs)) by (apply access_lookup_spec; eauto). rewrite L.
    rewrite (family_after _ _ _ _ Hf Hm d (VEnum n z)), G by (auto; reflexivity). rewrite (after_case_of _ _ _ _ _ _ F). cbn [after]. now rewrite A. }
  split; [exact E|]. exists (a ++ s'), u. rewrite app_assoc. split; [reflexivity|]. split; [exact Nu|]. rewrite E.
  destruct (given_dset _ _ _ _ Hf Hm _ _ (VDict (dset f (VList []) x)) _ G) as [G' Ho']. rewrite Ho in Ho'.
  rewrite (access_build_family _ _ _ _ _ _ Hf Hm Ho' eq_refl), (family_build _ _ _ _ Hm _ _ Ho' eq_refl), G', (build_case_of _ _ _ _ _ _ F).
  cbn [build] in Ha |- *. rewrite Ha. cbn [bind as_dict]. rewrite B'. reflexivity.
Qed.
Print Assumptions C17_key_list_refuted.
(** Non-vacuity: a NetKey list; the second build of the same object. *)
Definition netkeys : dict := [("opcode"%string, VEnum "CONFIG_NETKEY_LIST" 32835); ("params"%string, VDict [("net_key_indices"%string, VList [VInt 5; VInt 3; VInt 7])])].
Example C17_case : exists c, In ("CONFIG_NETKEY_LIST"%string, 32835, c) params /\ In ("CONFIG_NETKEY_LIST"%string, "net_key_indices"%string) key_list_messages /\
  access_build (VDict netkeys) = Ok [128; 67; 5; 48; 0; 7; 0] /\
  access_build (access_after (VDict netkeys)) = Ok [128; 67].
Proof.
  exists config_ConfigNetKeyList. split.
  - assert (U : exists z c, In ("CONFIG_NETKEY_LIST"%string, z, c) params /\ z = 32835 /\ c = config_ConfigNetKeyList).
    { exists 32835, config_ConfigNetKeyList. split; [|split; reflexivity]. unfold params. apply in_flat_map. exists (config_ConfigOpcode, config_ConfigMessage).
      split; [now left|]. unfold config_ConfigMessage. cbn [snd case_list In]. tauto. }
    destruct U as (z & c & H & -> & ->). exact H.
  - split; [now left|]. split; vm_compute; reflexivity.
Qed.
Example C17_time_case : exists c, In ("TIME_SET"%string, 92, c) params /\
  given "TIME_SET" [("opcode"%string, VEnum "TIME_SET" 92); ("time_set"%string, VDict [])] = Some ("time_set"%string, VDict []).
Proof.
  exists time_TimeSet. split; [|reflexivity]. apply in_flat_map. exists (time_TimeOpcode, time_TimeMessage). split; [unfold access_table; cbn [In]; tauto|].
  unfold time_TimeMessage. cbn [snd case_list In]. tauto.
Qed.

(** * P_sound: what was received can be sent again (C08). *)
From Verif Require Import PyVal Bits Float64 Adapters AdapterSpec Construct Size Spec Master AdapterProofs1 AdapterProofs4
  Access AccessProofs Conform Deps Doc Uses G_properties G_sensor P_access P_layout P_params P_optional P_sensor P_descriptor Reread Sound SoundAdapt.
Local Open Scope list_scope.
Local Open Scope Z_scope.

(** *** One message *)
(** the parameters [v], received as the message [c], can be sent again, and the receiver gets the same *)
Definition resends (c : con) (v : val) : Prop :=
  exists s w, build_msg c v = Ok s /\ bytes s /\ parse_msg c s = Ok w /\ eqv (pub v) (pub w).

Lemma resend_generic u c p v : wf false c = true -> snd_ok (adok u) [] false None c = true ->
  bytes p -> parse_msg c p = Ok v -> lossless u v -> resends c v.
Proof.
  intros W S B P L. unfold parse_msg in P. destruct (parse c [] p) as [[v1 r]| |] eqn:E; try discriminate P. injection P as ->.
  destruct (proj1 (sound_mut u (adok u) (adapters_sound u)) c false [] false None [] p v r [] [] W S B E (typed_nil _ _) (ext_refl _) v (or_introl eq_refl) L I)
    as (v' & C & Q).
  destruct (roundtrip A_spec adapters_ok c v v' W C) as (s & Hs & Us & w & Hw & Ew). exists s, w. subst v'. auto.
Qed.

Definition is_scene (n : string) : bool := String.eqb n "SCENE_STATUS".
Definition is_list (n : string) : bool := String.eqb n "SENSOR_STATUS" || String.eqb n "SENSOR_DESCRIPTOR_STATUS".
Lemma params_sound : forallb (fun p => match p with (n, z, c) => wf false c && (is_list n || snd_ok (adok (negb (is_scene n))) [] false None c) end) params = true.
Proof. vm_compute. reflexivity. Qed.
Lemma params_resend n z c p v : In (n, z, c) params -> is_list n = false -> bytes p -> parse_msg c p = Ok v ->
  lossless (negb (is_scene n)) v -> resends c v.
Proof.
  pose proof params_sound as F. revert F. generalize params. intros l F Hin N. rewrite forallb_forall in F. specialize (F _ Hin). cbn beta iota in F.
  rewrite N in F. apply andb_prop in F as [W F]. cbn [orb] in F. now apply resend_generic.
Qed.

(** *** Sensor descriptors: whatever was received *)
Lemma pid_received ctx s v r : bytes s -> parse sensor_SensorPropertyId ctx s = Ok (v, r) -> bytes r /\ exists p, 0 <= p < 65536 /\ as_int v = Some p /\ pidval p v.
Proof.
  intros B P. pose proof (parse_units sensor_SensorPropertyId false ctx s v r eq_refl B P) as U. split; [exact U|]. revert P. unfold sensor_SensorPropertyId.
  cbn [parse parse_alts decode]. destruct (take 2 s) as [[a r1]| |] eqn:T; cbn [bind]; try discriminate.
  destruct (units_take false _ _ _ _ T B) as (Ba & _). destruct (take_ok _ _ _ _ T) as (_ & La).
  pose proof (fits_int 2 false a ltac:(lia) Ba La) as F. unfold fits in F. change (2 ^ (8 * Z.of_nat 2)) with 65536 in F.
  revert F. generalize (int_of 2 false a). intros p R.
  unfold enum_decode. cbn [as_int]. destruct (by_value properties_PropertyID p) as [y|] eqn:Ey; cbn [bind]; intros P; injection P as <- <-.
  - destruct (by_value_enum _ _ _ Ey) as (n & ->). exists p. split; [exact R|]. split; [reflexivity|]. left. exists n. split; [now apply by_value_member|reflexivity].
  - exists p. split; [exact R|]. split; [reflexivity|]. right. split; [now apply unknown_none|reflexivity].
Qed.
Lemma pidval_eq p v v' : pidval p v -> pidval p v' -> v = v'.
Proof.
  intros [(n & M & ->) | (U & ->)] [(n' & M' & ->) | (U' & ->)].
  - apply member_by_value in M. apply member_by_value in M'. congruence.
  - elim (U' _ M).
  - elim (U _ M').
  - reflexivity.
Qed.
Lemma told_eq D v v' : told D v -> told D v' -> v = v'.
Proof. destruct D; cbn [told]; intros (i & K & ->) (i' & K' & ->); now rewrite (pidval_eq _ _ _ K K'). Qed.
Lemma pidval_pub p v : pidval p v -> pub v = v.
Proof. intros [(n & _ & ->) | (_ & ->)]; reflexivity. Qed.
Lemma short_received s v r : bytes s -> parse sensor_SensorDescriptorMinimal [] s = Ok (v, r) ->
  exists i p, v = VDict [("sensor_property_id"%string, i)] /\ 0 <= p < 65536 /\ as_int i = Some p /\ pidval p i.
Proof.
  intros B. unfold sensor_SensorDescriptorMinimal. pose proof (pid_received [] s) as G. revert G. generalize sensor_SensorPropertyId. intros c G.
  cbn [parse parse_fields]. destruct (parse c [] s) as [[i r1]| |]; cbn [bind]; try discriminate. intros P. injection P as <- <-.
  destruct (G _ _ B eq_refl) as (_ & p & H). exists i, p. split; [reflexivity|exact H].
Qed.
Lemma byte_received ctx s v r : bytes s -> parse Int8ul ctx s = Ok (v, r) -> bytes r /\ exists z, 0 <= z < 256 /\ v = VInt z.
Proof.
  intros B. cbn [parse]. destruct (take 1 s) as [[a r1]| |] eqn:T; cbn [bind]; try discriminate. intros P. injection P as <- <-.
  destruct (units_take false _ _ _ _ T B) as (Ba & Br). destruct (take_ok _ _ _ _ T) as (_ & La). split; [exact Br|].
  pose proof (fits_int 1 false a ltac:(lia) Ba La) as F. eexists. split; [|reflexivity]. exact F.
Qed.
Lemma long_received s v r : bytes s -> parse sensor_SensorDescriptorOptional [] s = Ok (v, r) ->
  exists d D, v = VDict d /\ valid D /\ is_long D = true /\ describes d D /\ told D (pub v).
Proof.
  intros B. unfold sensor_SensorDescriptorOptional.
  change (fapp (struct_fields sensor_SensorDescriptorMinimal) ?x) with (FCons "sensor_property_id" sensor_SensorPropertyId x).
  pose proof (pid_received [] s) as G. revert G. generalize sensor_SensorPropertyId. intros c G.
  cbn [parse parse_fields]. intros P. apply bind_ok in P as ([d r0] & P & E). injection E as <- <-.
  apply bind_ok in P as ([i r1] & P1 & P). destruct (G _ _ B P1) as (B1 & p & Rp & Ip & Kp). clear G.
  apply bind_ok in P as ([a r2] & T & P). destruct (units_take false _ _ _ _ T B1) as (Ba & B2).
  apply bind_ok in P as ([bd rb] & Pb & P).
  apply bind_ok in Pb as ([x1 q1] & Pb1 & Pb). apply bind_ok in Pb as ([x2 q2] & Pb2 & Pb). injection Pb as <- <-.
  apply bind_ok in Pb1 as ([a1 q3] & Pb1 & E). injection E as <- <-. apply bind_ok in Pb2 as ([a2 q4] & Pb2 & E). injection E as <- <-.
  destruct (units_take true _ _ _ _ Pb1 (bytes2bits_bits _)) as [U1 U2]. destruct (units_take true _ _ _ _ Pb2 U2) as [U3 _].
  apply take_ok in Pb1 as [_ L1]. apply take_ok in Pb2 as [_ L2].
  pose proof (of_bits_bound a1 U1) as H1. pose proof (of_bits_bound a2 U3) as H2. rewrite L1 in H1. rewrite L2 in H2.
  destruct q4; [|discriminate P]. revert H1 H2 P. generalize (of_bits a1) (of_bits a2). intros z1 z2 H1 H2 P.
  apply bind_ok in P as ([f r3] & P3 & P). destruct (byte_received [] _ _ _ B2 P3) as (B3 & zf & Rf & ->).
  apply bind_ok in P as ([f r4] & P4 & P). destruct (byte_received [] _ _ _ B3 P4) as (B4 & zm & Rm & ->).
  apply bind_ok in P as ([f r5] & P5 & P). destruct (byte_received [] _ _ _ B4 P5) as (B5 & zi & Ri & ->).
  injection P as <- <-. cbn [dset dget copy_named String.eqb Ascii.eqb Bool.eqb].
  eexists. exists (Long p z1 z2 zf zm zi). split; [reflexivity|]. cbn [valid is_long describes told].
  split; [cbn in H1, H2; lia|]. split; [reflexivity|]. split.
  - split; [reflexivity|]. split; [reflexivity|]. split; [exists i; split; [reflexivity|exact Ip]|]. repeat split; eexists; (split; [reflexivity|reflexivity]).
  - exists i. split; [exact Kp|]. rewrite pub_dict. cbn [pubd hidden]. rewrite (pidval_pub _ _ Kp). reflexivity.
Qed.
Lemma describes_name d D x : describes d D -> describes (dset "_name" x d) D.
Proof.
  unfold describes, int_at. destruct D as [p | p a b f m i]; intros (H1 & H2 & H).
  - rewrite !dget_dset_neq by discriminate. split; [exact H1|]. split; [exact H2|]. destruct H as (H & k & Hk & N). split; [exact H|].
    exists k. split; [exact Hk|]. rewrite dget_dset_neq; [exact N|]. cbn [long_only In] in Hk. intros E. destruct Hk as [<- | [<- | [<- | [<- | [<- | []]]]]]; discriminate E.
  - rewrite !dget_dset_neq by discriminate. auto.
Qed.
Lemma item_received s v r : bytes s -> parse sensor_SensorDescriptorStatusItem [] s = Ok (v, r) ->
  exists d D, v = VDict d /\ valid D /\ describes d D /\ told D (pub v) /\
    dget "_name" d = Some (VStr (cps (if is_long D then "optional" else "minimal"))).
Proof.
  intros B. rewrite P_descriptor.item_parse. destruct (parse sensor_SensorDescriptorOptional [] s) as [[v1 r1]|e|] eqn:E; [| |discriminate].
  - destruct (long_received _ _ _ B E) as (d & D & -> & V & L & De & T). intros P. injection P as <- <-.
    exists (dset "_name" (VStr (cps "optional")) d), D. split; [reflexivity|]. split; [exact V|]. split; [now apply describes_name|].
    split; [rewrite pub_dict, pubd_dset_hidden by reflexivity; rewrite <- pub_dict; exact T|]. rewrite L. apply dget_dset_eq.
  - destruct (parse sensor_SensorDescriptorMinimal [] s) as [[v1 r1]|e'|] eqn:E'; try discriminate.
    destruct (short_received _ _ _ B E') as (i & p & -> & Rp & Ip & Kp). intros P. injection P as <- <-. cbn [dset String.eqb Ascii.eqb Bool.eqb].
    eexists. exists (Short p). split; [reflexivity|]. cbn [valid is_long describes told]. split; [exact Rp|]. split; [|split].
    + split; [reflexivity|]. split; [reflexivity|]. split; [exists i; split; [reflexivity|exact Ip]|]. exists "sensor_positive_tolerance"%string. split; [now left|reflexivity].
    + exists i. split; [exact Kp|]. rewrite pub_dict. cbn [pubd hidden]. rewrite (pidval_pub _ _ Kp). reflexivity.
    + reflexivity.
Qed.
Theorem C08_descriptors : forall p v, bytes p -> parse_msg sensor_SensorDescriptorStatus p = Ok v -> resends sensor_SensorDescriptorStatus v.
Proof.
  intros p v B P. destruct (C42_received p) as (uL & uS & P' & LL & LS & GL & GS). rewrite P in P'. injection P' as ->.
  assert (F : Forall (fun x => exists s r, units false s /\ parse sensor_SensorDescriptorStatusItem [] s = Ok (x, r)) (map VDict (uL ++ uS))).
  { rewrite status_parse in P. destruct (greedy _ _ p) as [[l r]| |] eqn:G; cbn [bind] in P; try discriminate P. injection P as <-.
    eapply (greedy_elems false); [|exact B|exact G]. intros s v r' U E. exact (parse_units sensor_SensorDescriptorStatusItem false [] s v r' eq_refl U E). }
  assert (X : forall us, Forall (fun x => exists s r, units false s /\ parse sensor_SensorDescriptorStatusItem [] s = Ok (x, r)) (map VDict us) ->
    exists Ds, Forall valid Ds /\ Forall2 describes us Ds /\ Forall2 (fun D d => told D (pub (VDict d)) /\ dget "_name" d = Some (VStr (cps (if is_long D then "optional" else "minimal")))) Ds us).
  { clear. induction us as [|d us IH]; intros F; [exists []; repeat split; constructor|]. inversion F as [|x y (s & r & U & E) F']; subst.
    destruct (IH F') as (Ds & H1 & H2 & H3). destruct (item_received _ _ _ U E) as (d' & D & Ed & V & De & T & N). injection Ed as <-.
    exists (D :: Ds). repeat split; constructor; auto. }
  destruct (X _ F) as (Ds & V & De & T). clear X F.
  assert (Sep : separable Ds).
  { apply Forall2_app_inv_r in T as (DL & DS & TL & TS & ->). exists DL, DS. split; [reflexivity|].
    assert (QL : Forall (fun D => is_long D = true) DL). { clear -TL GL. induction TL as [|D d DL us [_ N] _ IH]; [constructor|]. inversion GL as [|x y (N' & _) G']; subst. constructor; [|auto].
      rewrite N in N'. destruct (is_long D); [reflexivity|discriminate N']. }
    assert (QS : Forall (fun D => is_long D = false) DS). { clear -TS GS. induction TS as [|D d DL us [_ N] _ IH]; [constructor|]. inversion GS as [|x y (N' & _) G']; subst. constructor; [|auto].
      rewrite N in N'. destruct (is_long D); [discriminate N'|reflexivity]. }
    split; [exact QL|]. split; [exact QS|]. replace (length DS) with (length uS) by (clear -TS; induction TS; cbn; congruence).
    rewrite LS. pose proof (Nat.mod_upper_bound (length p) 8). assert (length p mod 8 / 2 < 4)%nat by (apply Nat.div_lt_upper_bound; lia). lia. }
  destruct (C42_round_trip _ _ V De Sep) as (s & us & Bs & Ps & T'). exists s, (VList us). split; [exact Bs|]. split.
  { destruct (build_all _ _ V De) as (s' & Bs' & By & _). rewrite Bs in Bs'. injection Bs' as <-. exact By. }
  split; [exact Ps|]. assert (E : map pub (map VDict (uL ++ uS)) = map pub us); [|cbn [pub]; rewrite E; apply eqv_refl].
  clear -T T'. revert us T'. induction T as [|D d Ds ds [T _] _ IH]; intros us T'; inversion T' as [|x y z w K1 K2]; subst; [reflexivity|].
  cbn [map]. rewrite (IH _ K2). f_equal. eapply told_eq; eassumption.
Qed.
Print Assumptions C08_descriptors.

(** *** Sensor data: entries that carry the number of octets they announce *)
(** [x], an entry of a sensor status: the announced length is the size of the property's values,
    or, for a property nobody knows, the number of octets received. *)
Definition consistent (x : val) : Prop :=
  exists d len i z, x = VDict d /\ dget "length" d = Some (VInt len) /\ dget "sensor_setting_property_id" d = Some i /\ as_int i = Some z /\
    (forall n c, property n z c -> fsz c = Some (Z.to_nat len)) /\
    (unknown z -> exists l, dget "sensor_setting_raw" d = Some (VList l) /\ Z.of_nat (length l) = len).
Lemma properties_sound : forallb (fun p => match p with (n, z, c) => snd_ok (adok true) [] false None c end) (case_list properties_PropertyDict) = true.
Proof. vm_compute. reflexivity. Qed.
Lemma property_sound n z c : property n z c -> snd_ok (adok true) [] false None c = true.
Proof.
  pose proof properties_sound as F. unfold property. revert F. generalize (case_list properties_PropertyDict). intros l F H. rewrite forallb_forall in F. exact (F _ H).
Qed.
Lemma value_key_int z k i : value_key z k i -> as_int i = Some z /\ pub i = i.
Proof. intros [(n & _ & _ & ->) | (_ & _ & ->)]; split; reflexivity. Qed.
Lemma head_of s v r : bytes s -> parse sensor_SensorData [] s = Ok (v, r) -> exists long len pid r', in_range long len pid /\ s = head long len pid ++ r'.
Proof.
  unfold sensor_SensorData. generalize properties_PropertyDict properties_PropertyID. intros cs t B P. cbn [parse] in P.
  destruct s as [|b0 [|b1 [|b2 s]]]; try discriminate P.
  - inversion B as [|? ? H0 B1]; subst. inversion B1 as [|? ? H1 _]; subst. unfold isbyte in *.
    pose proof (Zdiv2_odd_eqn b0) as D. rewrite Z.div2_div in D. destruct (Z.odd b0) eqn:O; [discriminate P|].
    destruct (C40_head_total b0 b1 0 [] H0 H1 ltac:(unfold isbyte; lia)) as (long & len & pid & r' & R & E).
    destruct long; [exfalso; apply (f_equal (hd 0)) in E; change (b0 = 2 * (len - 1) + 1) in E; rewrite E, Z.add_comm, (Z.odd_add_mul_2 1 (len - 1)) in O; discriminate O|].
    exists false, len, pid, []. split; [exact R|]. cbn [head app] in *. injection E as -> -> _. reflexivity.
  - inversion B as [|? ? H0 B1]; subst. inversion B1 as [|? ? H1 B2]; subst. inversion B2 as [|? ? H2 _]; subst. now apply C40_head_total.
Qed.
Lemma data_received s v r : bytes s -> parse sensor_SensorData [] s = Ok (v, r) -> consistent v -> lossless true v ->
  exists v', sends v v' /\ eqv (pub v) v'.
Proof.
  intros B P C L. destruct (head_of _ _ _ B P) as (long & len & pid & r' & R & ->). destruct (value_key_ex pid) as (k & i & K).
  apply Forall_app in B as (_ & B). rewrite (data_parse _ _ _ _ _ _ R K) in P.
  assert (Bf : bytes (firstn (Z.to_nat len) r')) by (rewrite <- (firstn_skipn (Z.to_nat len) r') in B; apply Forall_app in B; tauto).
  destruct (value_key_int _ _ _ K) as (Ii & Pi). destruct (value_key_fresh _ _ _ K) as (Hh & N1 & N2 & N3).
  assert (A : forall x, announces [("format"%string, VInt (if long then 1 else 0)); ("length"%string, VInt len); ("sensor_setting_property_id"%string, i); (k, x)] long len pid).
  { intros x. exists (VInt (if long then 1 else 0)), (VInt len), i. repeat split; try exact Ii. destruct long; reflexivity. }
  assert (G : forall x, dget k [("format"%string, VInt (if long then 1 else 0)); ("length"%string, VInt len); ("sensor_setting_property_id"%string, i); (k, x)] = Some x).
  { intros x. cbn [dget]. destruct (String.eqb_spec k "format"); [contradiction|]. destruct (String.eqb_spec k "length"); [contradiction|].
    destruct (String.eqb_spec k "sensor_setting_property_id"); [contradiction|]. now rewrite String.eqb_refl. }
  assert (Pr : forall x, pub (report long len k i x) = report long len k i (pub x)).
  { intros x. unfold report. rewrite pub_dict. cbn [pubd]. rewrite Hh, Pi. reflexivity. }
  assert (Eq : forall x x', eqv (pub x) x' -> eqv (pub (report long len k i x)) (report long len k i x')).
  { intros x x' E. rewrite Pr. apply eqv_dict. repeat (apply Forall2_cons); try apply Forall2_nil; (split; [reflexivity|cbn [snd]; try exact E; apply eqv_refl]). }
  destruct (find_case pid properties_PropertyDict) as [[n c]|] eqn:F.
  - apply find_case_list in F. change (property n pid c) in F. destruct (parse c [] _) as [[x q]| |] eqn:E; cbn [bind fst] in P; try discriminate P. injection P as <- _.
    destruct (property_type _ _ _ F) as (_ & W & _). 
    assert (Lx : lossless true x) by (eapply lossless_dict; [exact L|]; do 3 right; now left).
    destruct (proj1 (sound_mut true (adok true) (adapters_sound true)) c false [] false None [] _ x q [] [] W (property_sound _ _ _ F) Bf E (typed_nil _ _) (ext_refl _) x (or_introl eq_refl) Lx I)
      as (x' & Cx & Qx).
    exists (report long len k i x'). split; [|now apply Eq].
    exists [("format"%string, VInt (if long then 1 else 0)); ("length"%string, VInt len); ("sensor_setting_property_id"%string, i); (k, x)], long, len, pid, k, i, x, x'.
    split; [reflexivity|]. split; [apply A|]. split; [exact R|]. split; [exact K|]. split; [apply G|]. split; [|reflexivity].
    left. exists n, c. split; [exact F|]. split; [|exact Cx].
    destruct C as (d & len' & i' & z & Ed & El & Ei & Ez & H & _). injection Ed as <-. injection El as <-. injection Ei as <-. rewrite Ii in Ez. injection Ez as <-. exact (H _ _ F).
  - injection P as <- _. assert (U : unknown pid). { destruct (property_cases pid) as [(n & c & Hp) | Hp]; [|exact Hp]. apply property_find in Hp as [Hp _]. congruence. }
    set (l := firstn (Z.to_nat len) r') in *. exists (report long len k i (VList (map VInt l))). split; [|apply Eq; cbn [pub]; rewrite map_pub_ints; apply eqv_refl].
    destruct C as (d & len' & i' & z & Ed & El & Ei & Ez & _ & H). injection Ed as <-. injection El as <-. injection Ei as <-. rewrite Ii in Ez. injection Ez as <-.
    destruct (H U) as (l0 & G0 & Ll). assert (Ek : k = "sensor_setting_raw"%string) by (destruct K as [(n & M & _) | (_ & -> & _)]; [elim (U _ M)|reflexivity]).
    rewrite <- Ek, G in G0. injection G0 as <-. rewrite map_length in Ll.
    exists [("format"%string, VInt (if long then 1 else 0)); ("length"%string, VInt len); ("sensor_setting_property_id"%string, i); (k, VList (map VInt l))], long, len, pid, k, i, (VList (map VInt l)), (VList (map VInt l)).
    split; [reflexivity|]. split; [apply A|]. split; [exact R|]. split; [exact K|]. split; [apply G|]. split; [|reflexivity].
    right. split; [exact U|]. exists l. split; [|split; [exact Ll|reflexivity]]. split; [exact Bf|]. auto.
Qed.
Theorem C08_sensor_data : forall p l, bytes p -> parse_msg sensor_SensorStatus p = Ok (VList l) -> Forall consistent l -> lossless true (VList l) ->
  resends sensor_SensorStatus (VList l).
Proof.
  intros p l B P C L.
  assert (F : Forall (fun x => exists s r, units false s /\ parse sensor_SensorData [] s = Ok (x, r)) l).
  { unfold parse_msg, sensor_SensorStatus in P.
    change (parse (CGreedyRange sensor_SensorData) [] p) with (let* q := greedy (parse sensor_SensorData []) (S (length p)) p in let (l, r) := (q : list val * list Z) in Ok (VList l, r)) in P.
    destruct (greedy (parse sensor_SensorData []) (S (length p)) p) as [[l' r]| |] eqn:G; cbn [bind] in P; try discriminate P. injection P as <-.
    eapply (greedy_elems false); [|exact B|exact G]. intros s v r' U E. refine (parse_units sensor_SensorData false [] s v r' _ U E). vm_compute. reflexivity. }
  assert (X : exists l', Forall2 sends l l' /\ Forall2 eqv (map pub l) l').
  { clear P. induction l as [|x l IH]; [exists []; split; constructor|]. inversion F as [|? ? (s & r & U & E) F']; subst. inversion C as [|? ? C1 C2]; subst.
    assert (L' : lossless true (VList l)). { intros k y H. apply L. inversion H; subst. eapply entry_list; [right; eassumption|eassumption]. }
    destruct IH as (l' & H1 & H2); try assumption.
    destruct (data_received _ _ _ U E C1) as (x' & S1 & Q1). { apply (lossless_list _ (x :: l)); [exact L|now left]. }
    exists (x' :: l'). split; constructor; assumption. }
  destruct X as (l' & S1 & Q). destruct (C41_round_trip _ _ S1) as (s & Bs & Us & w & Pw & Ew). exists s, w. split; [exact Bs|]. split; [exact Us|]. split; [exact Pw|].
  rewrite Ew. cbn [pub]. now apply eqv_list.
Qed.
Print Assumptions C08_sensor_data.

(** *** Access messages *)
(** [v], as AccessMessage.parse returned it, holds none of the values that do not survive. *)
Definition resendable (v : val) : Prop :=
  exists d, v = VDict d /\
    lossless (match dget "scene_status" d with Some _ => false | None => true end) v /\
    (forall l, dget "sensor_status" d = Some (VList l) -> Forall consistent l).
Lemma access_shape_of s v : bytes s -> access_parse s = Ok v -> exists z o r, s = o ++ r /\ opcode_bytes z o.
Proof.
  intros B P. unfold access_parse, access_parse_at in P. destruct (opcode_parse s) as [[z r]| |] eqn:E; cbn [bind] in P; try discriminate P.
  destruct (opcode_parse_bytes _ _ _ B E) as (o & -> & Ho). eauto.
Qed.
Lemma known_dec z : (exists t c n, family t c /\ member t n z) \/ (forall t c n, family t c -> ~ member t n z).
Proof.
  destruct (access_lookup z) as [[m c]|] eqn:E.
  - left. apply access_lookup_spec in E. destruct E as (t & n & H). exists t, c, n. tauto.
  - right. intros t c n Hf Hm. assert (H : access_lookup z = Some (VEnum n z, c)) by (apply access_lookup_spec; exists t, n; auto). congruence.
Qed.
Lemma params_names : forallb (fun p => match p with (n, z, c) => Bool.eqb (is_scene n) (String.eqb "scene_status" (lower n)) end) params = true.
Proof. vm_compute. reflexivity. Qed.
Lemma params_lists : filter (fun p => is_list (fst (fst p))) params =
  [("SENSOR_DESCRIPTOR_STATUS"%string, 0x51, sensor_SensorDescriptorStatus); ("SENSOR_STATUS"%string, 0x52, sensor_SensorStatus)].
Proof. vm_compute. reflexivity. Qed.
(** C08 in terms of the messages: what the parser of a message returned can be sent again and is
    received as the same public object. *)
Theorem C08_params : forall n z c p v, In (n, z, c) params -> bytes p -> parse_msg c p = Ok v ->
  lossless (negb (is_scene n)) v -> (n = "SENSOR_STATUS"%string -> forall l, v = VList l -> Forall consistent l) -> resends c v.
Proof.
  intros n z c p v Hin B P L C. destruct (is_list n) eqn:N; [|exact (params_resend _ _ _ _ _ Hin N B P L)].
  pose proof params_lists as F. revert F Hin. generalize params. intros ps F Hin.
  assert (K : In (n, z, c) (filter (fun p => is_list (fst (fst p))) ps)) by (apply filter_In; auto). rewrite F in K. clear F Hin.
  destruct K as [K | [K | []]]; injection K as <- <- <-.
  - exact (C08_descriptors p v B P).
  - assert (X : exists l, v = VList l). { unfold parse_msg, sensor_SensorStatus in P.
      change (parse (CGreedyRange sensor_SensorData) [] p) with (let* q := greedy (parse sensor_SensorData []) (S (length p)) p in let (l, r) := (q : list val * list Z) in Ok (VList l, r)) in P.
      destruct (greedy (parse sensor_SensorData []) (S (length p)) p) as [[l' r]| |] eqn:G; cbn [bind] in P; try discriminate P. injection P as <-. eauto. }
    destruct X as (l & ->). exact (C08_sensor_data p l B P (C eq_refl l eq_refl) L).
Qed.
Print Assumptions C08_params.
(** C08: every access message that was received without error, known opcode or not, and holds none
    of the values listed in [survives] and no inconsistent sensor data, can be sent again: the bytes
    are accepted, and are received as an equal object. *)
Theorem C08_access : forall s v, bytes s -> access_parse s = Ok v -> resendable v ->
  exists s' w, access_build v = Ok s' /\ access_parse s' = Ok w /\ eqv (pub v) (pub w).
Proof.
  intros s v B P (d & -> & L & C). destruct (access_shape_of _ _ B P) as (z & o & r & -> & Ho).
  destruct (known_dec z) as [(t & c & n & Hf & Hm) | U].
  - destruct (existsb (String.eqb n) unimplemented) eqn:I.
    + apply in_unimplemented in I. destruct (C47_dropped_exactly _ _ _ _ _ Hf Hm Ho I) as (Hp & Hb). rewrite Hp in P. injection P as <-.
      exists o. eexists. split; [now apply Hb|]. split; [rewrite <- (app_nil_r o); apply Hp|]. apply eqv_refl.
    + pose proof (implemented_dec t c n z Hf (member_in _ _ _ Hm)) as Hc. rewrite I in Hc. apply has_case_find in Hc as (n' & p & Hp).
      destruct (access_shape t c Hf) as (cs & ->). cbn [cases_of] in Hp. apply find_case_list in Hp.
      pose proof (C49_params_complete _ _ _ _ _ _ _ _ _ Hf Hp) as Hin.
      assert (n' = n). { destruct (params_family _ _ _ Hin) as (t' & cs' & Hf' & Hm' & _).
        assert (E1 : access_lookup z = Some (VEnum n' z, CSwitchStruct "opcode" (COpcode t') t' "params" cs')) by (apply access_lookup_spec; eauto).
        assert (E2 : access_lookup z = Some (VEnum n z, CSwitchStruct "opcode" (COpcode t) t "params" cs)) by (apply access_lookup_spec; eauto).
        congruence. }
      subst n'. rewrite (C49_message_parse _ _ _ _ _ Hin Ho) in P. destruct (parse_msg p r) as [x| |] eqn:Ex; cbn [bind] in P; try discriminate P. injection P as <-.
      pose proof (access_no_opcode_name _ _ _ _ Hf Hm) as No.
      pose proof params_names as F. assert (F' := F). rewrite forallb_forall in F'. specialize (F' _ Hin). cbn beta iota in F'. clear F.
      apply eqb_prop in F'. rename F' into F1.
      apply Forall_app in B as (_ & B).
      destruct (C08_params n z p r x Hin B Ex) as (s' & w & Bs & Us & Pw & Q).
      * replace (negb (is_scene n)) with (match dget "scene_status" [("opcode"%string, VEnum n z); (lower n, x)] with Some _ => false | None => true end).
        { eapply lossless_dict; [exact L|]. right. now left. }
        cbn [dget]. change (String.eqb "scene_status" "opcode") with false. cbv iota. rewrite <- F1. now destruct (is_scene n).
      * intros -> l ->. apply C. reflexivity.
      * exists (o ++ s'), (VDict [("opcode"%string, VEnum n z); (lower n, w)]). split; [|split].
        { rewrite (C49_message_build n z p o [("opcode"%string, VEnum n z); (lower n, x)] (VEnum n z) x Hin Ho eq_refl eq_refl); [now rewrite Bs|]. cbn [dget].
          destruct (String.eqb_spec (lower n) "opcode"); [contradiction|]. now rewrite String.eqb_refl. }
        { rewrite (C49_message_parse _ _ _ _ _ Hin Ho), Pw. reflexivity. }
        { rewrite !pub_dict. cbn [pubd]. change (hidden "opcode") with false. cbv iota. cbn [pub]. destruct (hidden (lower n)).
          - apply eqv_refl.
          - apply eqv_dict. repeat (apply Forall2_cons); try apply Forall2_nil; (split; [reflexivity|cbn [snd]; try exact Q; apply eqv_refl]). }
  - destruct (C02_unknown_opcode_transparent z o r Ho U) as (P' & Bv). pose proof P as P2. rewrite P' in P2. injection P2 as <-.
    exists (o ++ r). eexists. split; [exact Bv|]. split; [exact P'|apply eqv_refl].
Qed.
Print Assumptions C08_access.

(** Non-vacuity: a set message with a transition time of 20 s and a delay of 0.25 s. *)
Lemma survives_other u k x : ~ In k ["delay"; "transition_time"; "remaining_time"; "uncertainty"; "date"]%string -> (forall l, x <> VIPv4 l) -> survives u k x.
Proof.
  intros N H. unfold survives. cbn [In] in N.
  split; [intros ->; exfalso; tauto|]. split; [intros [-> | ->]; exfalso; tauto|]. split; [intros [-> | [-> _]]; exfalso; tauto|]. split; [exact H|].
  split; intros ->; exfalso; tauto.
Qed.
Example C08_case : exists v, access_parse [0x82; 0x02; 1; 7; 84; 50] = Ok v /\ resendable v.
Proof.
  eexists. split; [vm_compute; reflexivity|]. eexists. split; [reflexivity|]. split; [|discriminate].
  match goal with |- lossless ?b _ => change b with true end.
  intros k x H. inversion H as [d k0 x0 Hin E1 E2 E3 | d j y k0 x0 Hin He E1 E2 E3 | ]; subst; clear H.
  - destruct Hin as [E | [E | []]]; injection E as <- <-; (apply survives_other; [cbn [In]; intros K; decompose [or] K; try discriminate; contradiction|discriminate]).
  - destruct Hin as [E | [E | []]]; injection E as <- <-; [inversion He|].
    inversion He as [d k0 x0 Hin E1 E2 E3 | d j y k0 x0 Hin He' E1 E2 E3 | ]; subst; clear He.
    + destruct Hin as [E | [E | [E | [E | [E | []]]]]]; injection E as <- <-; try (apply survives_other; [cbn [In]; intros K; decompose [or] K; try discriminate; contradiction|discriminate]).
      * unfold survives. split; [discriminate|]. split; [intros _; vm_compute; discriminate|]. split; [|split; [discriminate|split; discriminate]].
        intros _ r Hr. assert (D : r = 0 \/ r = 1 \/ r = 2 \/ r = 3) by lia. destruct D as [-> | [-> | [-> | ->]]]; vm_compute; discriminate.
      * unfold survives. split; [|split; [intros [E|E]; discriminate E|split; [intros [E|[E _]]; discriminate E|split; [discriminate|split; discriminate]]]].
        intros _ z Hz E. assert (F : forallb (fun z => negb (Qeq_bool (rnd64 (z # 200)) (1 # 4))) lossy_delays = true) by (vm_compute; reflexivity).
        rewrite forallb_forall in F. specialize (F _ Hz). revert F E. generalize (rnd64 (z # 200)). intros q F E. injection E as E. subst q. discriminate F.
    + destruct Hin as [E | [E | [E | [E | [E | []]]]]]; injection E as <- <-; inversion He'.
Qed.
(** The exceptions are real.  43 tenths of a second come back as 42; an unknown remaining time is dropped together
    with the target scene; the unknown time cannot be sent at all. *)
Lemma eqv_get d d' : eqv (VDict d) (VDict d') -> forall k x, dget k d = Some x -> exists y, dget k d' = Some y /\ eqv x y.
Proof.
  intros H. assert (F : Forall2 (fun p q => fst p = fst q /\ eqv (snd p) (snd q)) d d').
  { inversion H; subst; [|assumption]. clear. induction d'; constructor; auto using eqv_refl. }
  clear H. induction F as [|[k1 x1] [k2 x2] d d' [E1 E2] _ IH]; intros k x G; [discriminate|]. cbn [fst snd] in *. subst k2. cbn [dget] in *.
  destruct (String.eqb k k1); [injection G as <-; eauto|auto].
Qed.
Theorem C08_43_tenths_refuted : exists s v s' w, bytes s /\ access_parse s = Ok v /\ access_build v = Ok s' /\ access_parse s' = Ok w /\ ~ eqv (pub v) (pub w).
Proof.
  exists [0x82; 0x02; 1; 7; 43; 50]. do 3 eexists. split; [cf|]. do 3 (split; [vm_compute; reflexivity|]). intros H. vm_compute in H.
  destruct (eqv_get _ _ H "generic_onoff_set" _ eq_refl) as (y & E & H'). vm_compute in E. injection E as <-.
  destruct (eqv_get _ _ H' "transition_time" _ eq_refl) as (y & E & Q). vm_compute in E. injection E as <-. inversion Q as [v Ev| | |p q Hq Ep Eq| |]. vm_compute in Hq. discriminate Hq.
Qed.
Theorem C08_scene_status_refuted : exists s v s' w, bytes s /\ access_parse s = Ok v /\ access_build v = Ok s' /\ access_parse s' = Ok w /\ ~ eqv (pub v) (pub w).
Proof.
  exists [0x5E; 0; 1; 0; 2; 0; 63]. do 3 eexists. split; [cf|]. do 3 (split; [vm_compute; reflexivity|]). intros H. vm_compute in H.
  destruct (eqv_get _ _ H "scene_status" _ eq_refl) as (y & E & H'). vm_compute in E. injection E as <-.
  destruct (eqv_get _ _ H' "target_scene" _ eq_refl) as (y & E & _). vm_compute in E. discriminate E.
Qed.
Theorem C08_unknown_time_refuted : exists s v e, bytes s /\ access_parse s = Ok v /\ access_build v = Err e.
Proof. exists [0x5D; 0; 0; 0; 0; 0]. do 2 eexists. split; [cf|]. split; [vm_compute; reflexivity|]. vm_compute. reflexivity. Qed.
Print Assumptions C08_43_tenths_refuted.
Print Assumptions C08_scene_status_refuted.
Print Assumptions C08_unknown_time_refuted.

(** * P_property: messages that carry the value of a property (C43), sensor settings (C44). *)
From Verif Require Import PyVal Bits Adapters Construct Size Spec Master AdapterSpec AdapterProofs1 AdapterProofs4
  Access AccessProofs Conform Deps Doc G_properties G_sensor G_property G_el G_elt G_lec P_layout P_params P_sensor.
Local Open Scope list_scope.
Local Open Scope Z_scope.

(** [carriers]: the message, whether it has an access octet, and its properties:
    [(name, id, type)], from the declaration's table. *)
Definition carriers : list (con * bool * list (string * Z * con)) :=
  [(property_GenericUserPropertySet, false, case_list properties_PropertyDict);
   (property_GenericAdminPropertySet, true, case_list properties_PropertyDict);
   (property_GenericPropertyStatus, true, case_list properties_PropertyDict);
   (el_EmergencyLightingPropertySet, false, case_list el_EmergencyLightingPropertyDict);
   (el_EmergencyLightingPropertyStatus, false, case_list el_EmergencyLightingPropertyDict);
   (elt_EmergencyLightingTestPropertySet, false, case_list elt_EmergencyLightingTestPropertyDict);
   (elt_EmergencyLightingTestPropertyStatus, false, case_list elt_EmergencyLightingTestPropertyDict);
   (lec_LightExtendedControllerPropertySet, false, case_list lec_LightExtendedControllerPropertyDict);
   (lec_LightExtendedControllerPropertyStatus, false, case_list lec_LightExtendedControllerPropertyDict)].

(** the shapes of the declarations *)
Definition pid_con (t : enum) (c : con) : Prop := c = CAdapt (AEnum t) Int16ul \/ c = CSelect (ACons (CAdapt (AEnum t) Int16ul) (ACons Int16ul ANil)).
Definition header (acc : bool) (pc : con) : con := CStruct (FCons "property_id" pc (if acc then FCons "access" Int8ul FNil else FNil)).
Definition table_ok (t : enum) (cs : cases) : bool :=
  nodupcase [] cs &&
  forallb (fun p => match find_case (snd p) cs with Some (n, _) => String.eqb n (fst p) | _ => false end) t &&
  forallb (fun p => match p with (n, z, c) => match by_value t z with Some (VEnum m w) => String.eqb m n && (w =? z) | _ => false end &&
     (0 <=? z) && (z <? 65536) && wf false c && match deps c with [] => true | _ => false end && match fsz c with Some _ => true | None => false end &&
     negb (hidden (lower n)) && negb (String.eqb (lower n) "property_id") && negb (String.eqb (lower n) "access") &&
     (match build c [] VNone with Err _ => true | _ => false end || String.eqb n "AUTO_RESUME_MODE") end) (case_list cs).
Lemma carriers_ok c acc ps : In (c, acc, ps) carriers -> exists pc t cs, c = CProp (header acc pc) t cs /\ pid_con t pc /\ ps = case_list cs /\ table_ok t cs = true.
Proof.
  assert (T1 : table_ok properties_PropertyID properties_PropertyDict = true) by (vm_compute; reflexivity).
  assert (T2 : table_ok el_EmergencyLightingProperty el_EmergencyLightingPropertyDict = true) by (vm_compute; reflexivity).
  assert (T3 : table_ok elt_EmergencyLightingTestProperty elt_EmergencyLightingTestPropertyDict = true) by (vm_compute; reflexivity).
  assert (T4 : table_ok lec_LightExtendedControllerProperty lec_LightExtendedControllerPropertyDict = true) by (vm_compute; reflexivity).
  unfold carriers. cbn [In].
  intros H; repeat destruct H as [H | H]; try (destruct H; fail); injection H as <- <- <-; do 3 eexists;
    (split; [reflexivity|]); (split; [first [left; reflexivity | right; reflexivity]|]); (split; [reflexivity|]); assumption.
Qed.

Section Carrier.
Context (t : enum) (cs : cases) (OK : table_ok t cs = true).
Lemma row n z ct : In (n, z, ct) (case_list cs) -> find_case z cs = Some (n, ct) /\ by_value t z = Some (VEnum n z) /\ 0 <= z < 65536 /\ wf false ct = true /\ deps ct = [] /\
  (exists m, fsz ct = Some m) /\ hidden (lower n) = false /\ lower n <> "property_id"%string /\ lower n <> "access"%string /\ (n <> "AUTO_RESUME_MODE"%string -> exists e, build ct [] VNone = Err e).
Proof.
  unfold table_ok in OK. apply andb_prop in OK as [O O3]. apply andb_prop in O as [O1 O2]. intros H. rewrite forallb_forall in O3. specialize (O3 _ H). cbv beta iota in O3.
  repeat (apply andb_prop in O3 as [O3 ?]). destruct (case_list_find _ _ _ _ _ O1 H) as (_ & F). split; [exact F|].
  split. { destruct (by_value t z) as [v|]; [|discriminate]. destruct v; try discriminate. apply andb_prop in O3 as [E1 E2]. apply String.eqb_eq in E1. apply Z.eqb_eq in E2. now subst. }
  split; [lia|]. split; [assumption|]. split; [destruct (deps ct); [reflexivity|discriminate]|]. split; [destruct (fsz ct); [eauto|discriminate]|].
  split; [now apply negb_true_iff|]. split; [now apply String.eqb_neq, negb_true_iff|]. split; [now apply String.eqb_neq, negb_true_iff|].
  intros N. apply String.eqb_neq in N. match goal with K : _ || _ = true |- _ => rewrite N, orb_false_r in K; destruct (build ct [] VNone); [discriminate K|eauto|discriminate K] end.
Qed.
Lemma known z v : by_value t z = Some v -> exists n ct, In (n, z, ct) (case_list cs) /\ v = VEnum n z.
Proof.
  intros H. destruct (by_value_enum _ _ _ H) as (n & ->). unfold table_ok in OK. apply andb_prop in OK as [O _]. apply andb_prop in O as [_ O].
  rewrite forallb_forall in O. specialize (O _ (by_value_in _ _ _ H)). cbn [fst snd] in O. destruct (find_case z cs) as [[m ct]|] eqn:E; [|discriminate].
  apply String.eqb_eq in O. subst m. exists n, ct. split; [now apply find_case_list|reflexivity].
Qed.
End Carrier.
Section Header.
Context (acc : bool) (pc : con) (t : enum) (HP : pid_con t pc).
Lemma int16_build ctx x z : as_int x = Some z -> 0 <= z < 65536 -> build Int16ul ctx x = Ok (to_le 2 z).
Proof.
  intros H R. cbn [build]. unfold as_intr. rewrite H. cbn [bind].
  replace ((int_min 2 false <=? z) && (z <=? int_max 2 false)) with true; [reflexivity|]. unfold int_min, int_max. change (2 ^ (8 * Z.of_nat 2)) with 65536. lia.
Qed.
Lemma pid_build ctx x n z : as_int x = Some z -> by_value t z = Some (VEnum n z) -> 0 <= z < 65536 -> build pc ctx x = Ok (to_le 2 z).
Proof.
  intros Hx Hb R. assert (E : build (CAdapt (AEnum t) Int16ul) ctx x = Ok (to_le 2 z)).
  { change (build (CAdapt (AEnum t) Int16ul) ctx x) with (let* w := enum_encode t x in build Int16ul ctx w).
    rewrite (enum_encode_int _ _ _ Hx), Hb. cbn [bind]. apply int16_build; [reflexivity|exact R]. }
  destruct HP as [-> | ->]; [exact E|]. change (build (CSelect (ACons (CAdapt (AEnum t) Int16ul) (ACons Int16ul ANil))) ctx x) with
    (match build (CAdapt (AEnum t) Int16ul) ctx x with Err _ => build_alts (ACons Int16ul ANil) ctx x | r => r end). now rewrite E.
Qed.
Lemma int16_parse ctx z r : 0 <= z < 65536 -> parse Int16ul ctx (to_le 2 z ++ r) = Ok (VInt z, r).
Proof.
  intros R. cbn [parse]. rewrite take_app' by apply to_le_length. cbn [bind]. do 2 f_equal. f_equal.
  destruct (fits_le_roundtrip 2 false z ltac:(lia) ltac:(unfold fits; cbn; lia)) as [_ E]. exact E.
Qed.
Lemma pid_parse ctx n z r : by_value t z = Some (VEnum n z) -> 0 <= z < 65536 -> parse pc ctx (to_le 2 z ++ r) = Ok (VEnum n z, r).
Proof.
  intros Hb R. assert (E : parse (CAdapt (AEnum t) Int16ul) ctx (to_le 2 z ++ r) = Ok (VEnum n z, r)).
  { change (parse (CAdapt (AEnum t) Int16ul) ctx (to_le 2 z ++ r)) with
      (let* q := parse Int16ul ctx (to_le 2 z ++ r) in let (w, r') := (q : val * list Z) in let* u := decode (AEnum t) w in Ok (u, r')).
    rewrite (int16_parse _ _ _ R). cbn [bind decode]. unfold enum_decode. cbn [as_int]. now rewrite Hb. }
  destruct HP as [-> | ->]; [exact E|]. change (parse (CSelect (ACons (CAdapt (AEnum t) Int16ul) (ACons Int16ul ANil))) ctx (to_le 2 z ++ r)) with
    (match parse (CAdapt (AEnum t) Int16ul) ctx (to_le 2 z ++ r) with Err _ => parse_alts (ACons Int16ul ANil) ctx (to_le 2 z ++ r) | q => q end). now rewrite E.
Qed.
Lemma pid_unknown ctx z r : by_value t z = None -> 0 <= z < 65536 -> (exists e, parse pc ctx (to_le 2 z ++ r) = Err e) \/ parse pc ctx (to_le 2 z ++ r) = Ok (VInt z, r).
Proof.
  intros Hb R. assert (E : exists e, parse (CAdapt (AEnum t) Int16ul) ctx (to_le 2 z ++ r) = Err e).
  { change (parse (CAdapt (AEnum t) Int16ul) ctx (to_le 2 z ++ r)) with
      (let* q := parse Int16ul ctx (to_le 2 z ++ r) in let (w, r') := (q : val * list Z) in let* u := decode (AEnum t) w in Ok (u, r')).
    rewrite (int16_parse _ _ _ R). cbn [bind decode]. unfold enum_decode. cbn [as_int]. rewrite Hb. cbn [bind]. eauto. }
  destruct HP as [-> | ->]; [now left|]. right. destruct E as (e & E). change (parse (CSelect (ACons (CAdapt (AEnum t) Int16ul) (ACons Int16ul ANil))) ctx (to_le 2 z ++ r)) with
    (match parse (CAdapt (AEnum t) Int16ul) ctx (to_le 2 z ++ r) with
     | Err _ => match parse Int16ul ctx (to_le 2 z ++ r) with Err _ => Err EOther | q => q end | q => q end). rewrite E, (int16_parse _ _ _ R). reflexivity.
Qed.

(** the octets before the value *)
Definition prefix (z : Z) (a : Z) : list Z := to_le 2 z ++ (if acc then [a] else []).
Definition access_of (d : dict) (a : Z) : Prop := acc = true -> exists x, dget "access" d = Some x /\ as_int x = Some a /\ 0 <= a < 256.
Lemma header_build d idv n z a : dget "property_id" d = Some idv -> as_int idv = Some z -> by_value t z = Some (VEnum n z) -> 0 <= z < 65536 -> access_of d a ->
  build (header acc pc) [] (VDict d) = Ok (prefix z a).
Proof.
  intros Hd Hz Hb R Ha. unfold header, prefix, access_of in *. cbn [build as_dict bind build_fields]. unfold dgetr at 1. rewrite Hd. cbn [bind]. rewrite (pid_build _ _ _ _ Hz Hb R). cbn [bind].
  destruct acc; [|reflexivity]. destruct (Ha eq_refl) as (x & Hx & Hxa & Ra). cbn [build_fields]. unfold dgetr. rewrite Hx. cbn [bind build]. unfold as_intr. rewrite Hxa. cbn [bind].
  replace ((int_min 1 false <=? a) && (a <=? int_max 1 false)) with true by (unfold int_min, int_max; change (2 ^ (8 * Z.of_nat 1)) with 256; lia).
  cbn [bind]. do 2 f_equal. cbn [to_le app]. rewrite Z.mod_small by lia. reflexivity.
Qed.
Lemma header_access d s : build (header true pc) [] (VDict d) = Ok s -> exists x a, dget "access" d = Some x /\ as_int x = Some a /\ 0 <= a < 256.
Proof.
  unfold header. intros H. cbn [build as_dict bind build_fields] in H. apply bind_ok in H as (idv & _ & H). apply bind_ok in H as (s1 & _ & H). apply bind_ok in H as (b & H & _).
  apply bind_ok in H as (x & Hx & H). unfold dgetr in Hx. destruct (dget "access" d) as [y|]; [|discriminate]. injection Hx as ->.
  apply bind_ok in H as (s2 & H & _). apply bind_ok in H as (a & Ha & H). unfold as_intr in Ha. destruct (as_int x) as [a'|] eqn:E; [|discriminate]. injection Ha as ->.
  destruct (_ && _) eqn:E2; [|discriminate]. exists x, a. split; [reflexivity|]. split; [exact E|]. unfold int_min, int_max in E2. change (2 ^ (8 * Z.of_nat 1)) with 256 in E2. lia.
Qed.
End Header.

(** *** C43, sending *)
(** the access octet of [d], if the message has one *)
Definition access_octet (acc : bool) (d : dict) (l : list Z) : Prop :=
  if acc then exists x a, dget "access" d = Some x /\ as_int x = Some a /\ 0 <= a < 256 /\ l = [a] else l = [].
(** The id, the access octet if any, and the value of that property, taken from the key named like it: nothing else. *)
Theorem C43_sent : forall c acc ps d idv n z ct x h b, In (c, acc, ps) carriers -> In (n, z, ct) ps ->
  dget "property_id" d = Some idv -> as_int idv = Some z -> access_octet acc d h ->
  dget (lower n) d = Some x -> build_msg ct x = Ok b -> build_msg c (VDict d) = Ok (to_le 2 z ++ h ++ b).
Proof.
  intros c acc ps d idv n z ct x h b Hc Hn Hid Hz Ha Hx Hb. destruct (carriers_ok _ _ _ Hc) as (pc & t & cs & -> & HP & -> & OK).
  destruct (row _ _ OK _ _ _ Hn) as (F & B & R & _). unfold build_msg in *. cbn [build].
  assert (E : exists a, access_of acc d a /\ h = if acc then [a] else []).
  { unfold access_of, access_octet in *. destruct acc; [|exists 0; split; [discriminate|exact Ha]]. destruct Ha as (y & a & H1 & H2 & H3 & H4). eauto 6. }
  destruct E as (a & Hacc & ->). rewrite (header_build acc pc t HP d idv n z a Hid Hz B R Hacc). cbn [bind]. unfold dgetr. rewrite Hid. cbn [bind].
  rewrite (int_key_as_int _ _ Hz), B, F. unfold dgetn. rewrite Hx, (build_case_of _ _ _ _ _ _ F), Hb. cbn [bind]. unfold prefix. now rewrite <- app_assoc.
Qed.
(** Whenever anything is sent, the id is that of a property of the message and the value is that of this property. *)
Theorem C43_sent_only : forall c acc ps d idv z s, In (c, acc, ps) carriers -> dget "property_id" d = Some idv -> as_int idv = Some z ->
  build_msg c (VDict d) = Ok s -> exists n ct h b, In (n, z, ct) ps /\ access_octet acc d h /\ s = to_le 2 z ++ h ++ b /\
    build_msg ct (match dget (lower n) d with Some x => x | None => VNone end) = Ok b.
Proof.
  intros c acc ps d idv z s Hc Hid Hz H. destruct (carriers_ok _ _ _ Hc) as (pc & t & cs & -> & HP & -> & OK).
  unfold build_msg in *. cbn [build] in H. apply bind_ok in H as (h0 & Hh & H). unfold dgetr in H. rewrite Hid in H. cbn [bind] in H. rewrite (int_key_as_int _ _ Hz) in H.
  destruct (by_value t z) as [v|] eqn:B; [|discriminate H]. destruct (known _ _ OK _ _ B) as (n & ct & Hn & ->).
  destruct (row _ _ OK _ _ _ Hn) as (F & _ & R & _). rewrite F in H. apply bind_ok in H as (b & Hb & H). injection H as <-.
  rewrite (build_case_of _ _ _ _ _ _ F) in Hb.
  assert (E : exists a, access_of acc d a).
  { unfold access_of. destruct acc; [|exists 0; discriminate]. destruct (header_access _ _ _ Hh) as (x & a & H1 & H2 & H3). eauto. }
  destruct E as (a & Ha). rewrite (header_build acc pc t HP d idv n z a Hid Hz B R Ha) in Hh. injection Hh as <-.
  exists n, ct, (if acc then [a] else []), b. split; [exact Hn|]. split; [|split; [unfold prefix; now rewrite <- app_assoc|exact Hb]].
  unfold access_octet, access_of in *. destruct acc; [|reflexivity]. destruct (Ha eq_refl) as (x & H1 & H2 & H3). eauto 6.
Qed.
(** An id of no property is an error. *)
Theorem C43_unknown_id_rejected : forall c acc ps d idv z, In (c, acc, ps) carriers -> dget "property_id" d = Some idv -> as_int idv = Some z ->
  (forall n ct, ~ In (n, z, ct) ps) -> exists e, build_msg c (VDict d) = Err e.
Proof.
  intros c acc ps d idv z Hc Hid Hz N. destruct (build_msg c (VDict d)) as [s|e|] eqn:E; [|eauto|exfalso; eapply build_nodiv; exact E].
  destruct (C43_sent_only _ _ _ _ _ _ _ Hc Hid Hz E) as (n & ct & _ & _ & Hn & _). elim (N _ _ Hn).
Qed.
(** So is a missing value, of any property but one. *)
Theorem C43_missing_value_rejected : forall c acc ps d idv n z ct, In (c, acc, ps) carriers -> In (n, z, ct) ps -> n <> "AUTO_RESUME_MODE"%string ->
  dget "property_id" d = Some idv -> as_int idv = Some z -> dget (lower n) d = None -> exists e, build_msg c (VDict d) = Err e.
Proof.
  intros c acc ps d idv n z ct Hc Hn Hne Hid Hz N. destruct (build_msg c (VDict d)) as [s|e|] eqn:E; [|eauto|exfalso; eapply build_nodiv; exact E].
  destruct (C43_sent_only _ _ _ _ _ _ _ Hc Hid Hz E) as (n' & ct' & h & b & Hn' & _ & _ & Hb).
  destruct (carriers_ok _ _ _ Hc) as (pc & t & cs & -> & HP & -> & OK).
  destruct (row _ _ OK _ _ _ Hn) as (F & _ & _ & _ & _ & _ & _ & _ & _ & Hmiss). destruct (row _ _ OK _ _ _ Hn') as (F' & _). rewrite F in F'. injection F' as <- <-.
  rewrite N in Hb. destruct (Hmiss Hne) as (e & He). unfold build_msg in Hb. congruence.
Qed.
Print Assumptions C43_sent.
Print Assumptions C43_sent_only.
Print Assumptions C43_unknown_id_rejected.
Print Assumptions C43_missing_value_rejected.
(** The auto resume mode of the light extended controller is sent as "off" when it is missing. *)
Theorem C43_missing_auto_resume_mode_refuted :
  build_msg lec_LightExtendedControllerPropertySet (VDict [("property_id"%string, VEnum "AUTO_RESUME_MODE" 0xFF71)]) = Ok [0x71; 0xFF; 0].
Proof. vm_compute. reflexivity. Qed.
Print Assumptions C43_missing_auto_resume_mode_refuted.

(** *** C43, receiving *)
Definition access_entry (acc : bool) (h : list Z) (e : dict) : Prop := if acc then exists a, 0 <= a < 256 /\ h = [a] /\ e = [("access"%string, VInt a)] else h = [] /\ e = [].
Lemma header_parse acc t pc n z h e r : pid_con t pc -> by_value t z = Some (VEnum n z) -> 0 <= z < 65536 -> access_entry acc h e ->
  parse (header acc pc) [] ((to_le 2 z ++ h ++ r)) = Ok (VDict (("property_id"%string, VEnum n z) :: e), r).
Proof.
  intros HP B R Ha. unfold header. cbn [parse parse_fields]. rewrite (pid_parse _ _ HP _ _ _ _ B R). cbn [bind].
  unfold access_entry in Ha. destruct acc.
  - destruct Ha as (a & Ra & -> & ->). cbn [parse_fields]. cbn [parse]. rewrite (take_app' 1 [a]) by reflexivity. cbn [bind]. unfold int_of. cbn [of_le].
    replace (a + 256 * 0) with a by lia. reflexivity.
  - destruct Ha as (-> & ->). reflexivity.
Qed.
Theorem C43_received : forall c acc ps n z ct h e b v r, In (c, acc, ps) carriers -> In (n, z, ct) ps -> access_entry acc h e ->
  parse ct [] b = Ok (v, r) -> parse c [] (to_le 2 z ++ h ++ b) = Ok (VDict (e ++ [("property_id"%string, VEnum n z); (lower n, v)]), r).
Proof.
  intros c acc ps n z ct h e b v r Hc Hn Ha Hb. destruct (carriers_ok _ _ _ Hc) as (pc & t & cs & -> & HP & -> & OK).
  destruct (row _ _ OK _ _ _ Hn) as (F & B & R & _ & _ & _ & _ & N1 & N2 & _). cbn [parse]. rewrite (header_parse _ _ _ _ _ _ _ _ HP B R Ha). cbn [bind].
  unfold dgetr. cbn [dget String.eqb Ascii.eqb Bool.eqb]. cbn [bind]. change (as_intr (VEnum n z)) with (Ok z). cbn [bind]. rewrite B, F, (parse_case_of _ _ _ _ _ _ F), Hb. cbn [bind].
  unfold access_entry in Ha. do 2 f_equal. f_equal. destruct acc.
  - destruct Ha as (a & _ & _ & ->). cbn [ddel dset String.eqb Ascii.eqb Bool.eqb app]. destruct (String.eqb_spec (lower n) "access"); [now elim N2|]. destruct (String.eqb_spec (lower n) "property_id"); [now elim N1|]. reflexivity.
  - destruct Ha as (_ & ->). cbn [ddel dset String.eqb Ascii.eqb Bool.eqb app]. destruct (String.eqb_spec (lower n) "property_id"); [now elim N1|]. reflexivity.
Qed.
Theorem C43_received_unknown_rejected : forall c acc ps z s, In (c, acc, ps) carriers -> 0 <= z < 65536 -> (forall n ct, ~ In (n, z, ct) ps) ->
  exists e, parse_msg c (to_le 2 z ++ s) = Err e.
Proof.
  intros c acc ps z s Hc R N. destruct (carriers_ok _ _ _ Hc) as (pc & t & cs & -> & HP & -> & OK).
  assert (B : by_value t z = None). { destruct (by_value t z) as [v|] eqn:B; [|reflexivity]. destruct (known _ _ OK _ _ B) as (n & ct & Hn & _). elim (N _ _ Hn). }
  unfold parse_msg. apply bind_err. cbn [parse].
  destruct (pid_unknown _ _ HP [] z s B R) as [(e & E) | E].
  - unfold header at 1. cbn [parse parse_fields]. rewrite E. cbn [bind]. eauto.
  - assert (Q : (exists e, parse (header acc pc) [] (to_le 2 z ++ s) = Err e) \/ exists e r, parse (header acc pc) [] (to_le 2 z ++ s) = Ok (VDict (("property_id"%string, VInt z) :: e), r)).
    { unfold header. cbn [parse parse_fields]. rewrite E. cbn [bind]. destruct acc; [|right; exists [], s; reflexivity]. cbn [parse_fields parse].
      destruct (take 1 s) as [[l r]|e|] eqn:T; cbn [bind]; [right; do 2 eexists; reflexivity|left; eauto|exfalso; eapply take_nodiv; eauto]. }
    destruct Q as [(e & ->) | (e & r & ->)]; cbn [bind]; [eauto|]. unfold dgetr. cbn [dget String.eqb Ascii.eqb Bool.eqb bind]. unfold as_intr. cbn [as_int bind]. rewrite B. eauto.
Qed.
(** a value that cannot be read is an error too *)
Theorem C43_received_bad_value_rejected : forall c acc ps n z ct h e b er, In (c, acc, ps) carriers -> In (n, z, ct) ps -> access_entry acc h e ->
  parse ct [] b = Err er -> exists er', parse_msg c (to_le 2 z ++ h ++ b) = Err er'.
Proof.
  intros c acc ps n z ct h e b er Hc Hn Ha Hb. destruct (carriers_ok _ _ _ Hc) as (pc & t & cs & -> & HP & -> & OK).
  destruct (row _ _ OK _ _ _ Hn) as (F & B & R & _). unfold parse_msg. apply bind_err. cbn [parse]. rewrite (header_parse _ _ _ _ _ _ _ _ HP B R Ha). cbn [bind].
  unfold dgetr. cbn [dget String.eqb Ascii.eqb Bool.eqb]. cbn [bind]. change (as_intr (VEnum n z)) with (Ok z). cbn [bind]. rewrite B, F, (parse_case_of _ _ _ _ _ _ F), Hb. cbn [bind]. eauto.
Qed.
(** Round trip, for every property and every value of its type. *)
Theorem C43_round_trip : forall c acc ps d idv n z ct x x' h e, In (c, acc, ps) carriers -> In (n, z, ct) ps ->
  dget "property_id" d = Some idv -> as_int idv = Some z -> access_octet acc d h -> access_entry acc h e ->
  dget (lower n) d = Some x -> message A_spec ct x x' ->
  exists s u, build_msg c (VDict d) = Ok s /\ parse_msg c s = Ok u /\ pub u = VDict (e ++ [("property_id"%string, VEnum n z); (lower n, x')]).
Proof.
  intros c acc ps d idv n z ct x x' h e Hc Hn Hid Hz Ho He Hx M. pose proof (carriers_ok _ _ _ Hc) as (pc & t & cs & _ & _ & E & OK).
  pose proof Hn as Hn'. rewrite E in Hn'. destruct (row _ _ OK _ _ _ Hn') as (_ & _ & _ & W & _ & _ & Hh & _).
  destruct (roundtrip A_spec adapters_ok ct x x' W M) as (b & Hb & _ & u & Hu & Eu). unfold parse_msg in Hu. apply bind_ok in Hu as ([u' r] & Hu & Ev). injection Ev as ->.
  exists (to_le 2 z ++ h ++ b). eexists. split; [eapply C43_sent; eauto|]. unfold parse_msg. rewrite (C43_received _ _ _ _ _ _ _ _ _ _ _ Hc Hn He Hu). split; [reflexivity|].
  rewrite pub_dict. f_equal. unfold access_entry in He. destruct acc; [destruct He as (a & _ & _ & ->)|destruct He as (_ & ->)]; cbn [app pubd hidden]; rewrite Hh, Eu; reflexivity.
Qed.
Print Assumptions C43_received.
Print Assumptions C43_received_unknown_rejected.
Print Assumptions C43_received_bad_value_rejected.
Print Assumptions C43_round_trip.

(** *** C44: sensor settings *)
(** a property id as it is reported: the member if there is one *)
Definition idval (p : Z) (v : val) : Prop := (exists n, member properties_PropertyID n p /\ v = VEnum n p) \/ (unknown p /\ v = VInt p).
Lemma idval_ex p : exists v, idval p v.
Proof. destruct (value_key_ex p) as (k & i & [(n & M & _ & _) | (U & _)]); unfold idval; eauto. Qed.
Lemma idval_int p v : idval p v -> as_int v = Some p.
Proof. intros [(n & _ & ->) | (_ & ->)]; reflexivity. Qed.
Lemma spid_build ctx x p : as_int x = Some p -> 0 <= p < 65536 -> build sensor_SensorPropertyId ctx x = Ok (to_le 2 p).
Proof.
  intros Hx R. unfold sensor_SensorPropertyId. generalize properties_PropertyID. intros t.
  change (build (CSelect (ACons (CAdapt (AEnum t) Int16ul) (ACons Int16ul ANil))) ctx x) with
    (match (let* w := enum_encode t x in build Int16ul ctx w) with Err _ => match build Int16ul ctx x with Err _ => Err EOther | r => r end | r => r end).
  rewrite (enum_encode_int _ _ _ Hx), (int16_build _ _ _ Hx R). destruct (by_value t p) as [v|] eqn:B; cbn [bind]; [|reflexivity].
  destruct (by_value_enum _ _ _ B) as (n & ->). rewrite (int16_build _ (VEnum n p) p eq_refl R). reflexivity.
Qed.
Lemma spid_parse ctx p i r : idval p i -> 0 <= p < 65536 -> parse sensor_SensorPropertyId ctx (to_le 2 p ++ r) = Ok (i, r).
Proof.
  intros [(n & M & ->) | (U & ->)] R; unfold sensor_SensorPropertyId.
  - apply (pid_parse _ properties_PropertyID); [right; reflexivity|now apply member_by_value|exact R].
  - apply unknown_none in U. revert U. generalize properties_PropertyID. intros t U.
    change (parse (CSelect (ACons (CAdapt (AEnum t) Int16ul) (ACons Int16ul ANil))) ctx (to_le 2 p ++ r)) with
      (match (let* q := parse Int16ul ctx (to_le 2 p ++ r) in let (w, r') := (q : val * list Z) in let* u := decode (AEnum t) w in Ok (u, r')) with
       | Err _ => match parse Int16ul ctx (to_le 2 p ++ r) with Err _ => Err EOther | q => q end | q => q end).
    rewrite (int16_parse _ _ _ R). cbn [bind decode]. unfold enum_decode. cbn [as_int]. rewrite U. reflexivity.
Qed.
Lemma int8_build ctx x a : as_int x = Some a -> 0 <= a < 256 -> build Int8ul ctx x = Ok [a].
Proof.
  intros Hx R. cbn [build]. unfold as_intr. rewrite Hx. cbn [bind].
  replace ((int_min 1 false <=? a) && (a <=? int_max 1 false)) with true by (unfold int_min, int_max; change (2 ^ (8 * Z.of_nat 1)) with 256; lia).
  cbn [to_le]. rewrite Z.mod_small by lia. reflexivity.
Qed.
Lemma int8_parse ctx a r : 0 <= a < 256 -> parse Int8ul ctx (a :: r) = Ok (VInt a, r).
Proof. intros R. change (a :: r) with ([a] ++ r). cbn [parse]. rewrite (take_app' 1 [a]) by reflexivity. cbn [bind]. unfold int_of. cbn [of_le]. do 3 f_equal. lia. Qed.

Definition settings : list (con * bool) := [(sensor_SensorSettingSet, false); (sensor_SensorSettingStatus, true)].
(** [d] gives the sensor property [p], the setting property [z] and, in a status, the access octet [h] *)
Definition gives (acc : bool) (d : dict) (p z : Z) (h : list Z) : Prop :=
  exists px zx, dget "sensor_property_id" d = Some px /\ as_int px = Some p /\ 0 <= p < 65536 /\
    dget "sensor_setting_property_id" d = Some zx /\ as_int zx = Some z /\ 0 <= z < 65536 /\
    if acc then exists x a, dget "sensor_setting_access" d = Some x /\ as_int x = Some a /\ 0 <= a < 256 /\ h = [a] else h = [].
(** the report of a setting *)
Definition setting (acc : bool) (p : Z) (h : list Z) (i : val) (k : string) (v : val) (u : val) : Prop :=
  exists pv, idval p pv /\
    if acc then exists a, 0 <= a < 256 /\ h = [a] /\ u = VDict [("sensor_property_id"%string, pv); ("sensor_setting_access"%string, VInt a); ("sensor_setting_property_id"%string, i); (k, v)]
    else h = [] /\ u = VDict [("sensor_property_id"%string, pv); ("sensor_setting_property_id"%string, i); (k, v)].

Lemma value_key_fresh2 z k i : value_key z k i -> k <> "sensor_property_id"%string /\ k <> "sensor_setting_access"%string /\ k <> "sensor_setting_property_id"%string /\ hidden k = false /\ idval z i.
Proof.
  intros [(n & M & -> & ->) | (U & -> & ->)].
  - pose proof M as M'. apply member_by_value in M. destruct (property_of _ _ M) as (c & P). apply property_type in P as (_ & _ & _ & _ & _ & Hh & P).
    repeat split; try (apply P; cbn [other_keys In]; tauto); [exact Hh|]. left. eauto.
  - repeat split; try discriminate. right. auto.
Qed.
Lemma setting_build_eq c acc d p z h k i : In (c, acc) settings -> gives acc d p z h -> value_key z k i ->
  build_msg c (VDict d) =
  let* b := match find_case z properties_PropertyDict with
            | Some (_, ct) => match build ct [] (rawv k d) with Err EKey => to_bytes (rawv k d) | r => r end
            | None => to_bytes (rawv k d)
            end in Ok (to_le 2 p ++ to_le 2 z ++ h ++ b).
Proof.
  intros Hc (px & zx & Hp & Hpi & Rp & Hz & Hzi & Rz & Ha) K.
  destruct (setting_build _ _ _ _ Hzi K) as (j & Hj & Hjz).
  assert (G : exists hdr, c = CSensorSetting hdr properties_PropertyID properties_PropertyDict /\ build hdr [] (VDict d) = Ok (to_le 2 p ++ to_le 2 z ++ h)).
  { destruct Hc as [E | [E | []]]; injection E as <- <-.
    - exists sensor_SensorSettingGet. split; [reflexivity|]. unfold sensor_SensorSettingGet.
      change (fapp (struct_fields sensor_SensorSettingsGet) ?x) with (FCons "sensor_property_id" sensor_SensorPropertyId x).
      pose proof (fun ctx => spid_build ctx px p Hpi Rp) as B1. pose proof (fun ctx => spid_build ctx zx z Hzi Rz) as B2. revert B1 B2. generalize sensor_SensorPropertyId. intros pc B1 B2.
      cbn [build as_dict bind build_fields]. unfold dgetr. rewrite Hp. cbn [bind]. rewrite B1. cbn [bind]. rewrite Hz. cbn [bind]. rewrite B2. cbn [bind]. now rewrite Ha.
    - eexists. split; [reflexivity|]. 
      change (fapp (struct_fields sensor_SensorSettingGet) ?x) with (FCons "sensor_property_id" sensor_SensorPropertyId (FCons "sensor_setting_property_id" sensor_SensorPropertyId x)).
      pose proof (fun ctx => spid_build ctx px p Hpi Rp) as B1. pose proof (fun ctx => spid_build ctx zx z Hzi Rz) as B2. revert B1 B2. generalize sensor_SensorPropertyId. intros pc B1 B2.
      destruct Ha as (x & a & Hx & Hxa & Ra & ->). cbn [build_fields]. change (build (CStruct ?f) [] (VDict d)) with (build_fields f d d). cbn [build_fields]. unfold dgetr. rewrite Hp. cbn [bind]. rewrite B1. cbn [bind]. rewrite Hz. cbn [bind]. rewrite B2. cbn [bind]. rewrite Hx. cbn [bind].
      change (build (CInt 1 false)) with (build Int8ul). rewrite (int8_build _ _ _ Hxa Ra). reflexivity. }
  destruct G as (hdr & -> & G). unfold build_msg. revert Hj Hjz. unfold rawv. clear Hc K. generalize properties_PropertyDict properties_PropertyID. intros cs t Hj Hjz.
  cbn [build]. rewrite G. cbn [bind]. unfold dgetr. change sid_name with "sensor_setting_property_id"%string. rewrite Hz. cbn [bind]. rewrite Hj, Hjz.
  destruct (find_case z cs) as [[n ct]|] eqn:F.
  - rewrite (build_case_of _ _ _ _ _ _ F). match goal with |- bind ?x _ = bind ?x _ => destruct x; cbn [bind]; [now rewrite <- !app_assoc|reflexivity|reflexivity] end.
  - match goal with |- bind ?x _ = bind ?x _ => destruct x; cbn [bind]; [now rewrite <- !app_assoc|reflexivity|reflexivity] end.
Qed.
Lemma setting_parse_eq c acc p z h k i s : In (c, acc) settings -> value_key z k i -> 0 <= p < 65536 -> 0 <= z < 65536 -> (if acc then exists a, 0 <= a < 256 /\ h = [a] else h = []) ->
  exists out, (forall v, setting acc p h i k v (out v)) /\
  parse c [] (to_le 2 p ++ to_le 2 z ++ h ++ s) =
  match find_case z properties_PropertyDict with
  | Some (_, ct) => let* q := parse ct [] s in Ok (out (fst q), snd q)
  | None => Ok (out (VList (map VInt s)), [])
  end.
Proof.
  intros Hc K Rp Rz Ha. destruct (value_key_fresh2 _ _ _ K) as (N1 & N2 & N3 & _ & Hi). destruct (idval_ex p) as (pv & Hp).
  assert (G : exists hdr e, c = CSensorSetting hdr properties_PropertyID properties_PropertyDict /\
            parse hdr [] (to_le 2 p ++ to_le 2 z ++ h ++ s) = Ok (VDict ([("sensor_property_id"%string, pv); ("sensor_setting_property_id"%string, i)] ++ e), s) /\
            forall v, setting acc p h i k v (VDict ([("sensor_property_id"%string, pv)] ++ e ++ [("sensor_setting_property_id"%string, i); (k, v)])) /\ 
              dset k v (dset sid_name i (ddel sid_name ([("sensor_property_id"%string, pv); ("sensor_setting_property_id"%string, i)] ++ e))) =
              [("sensor_property_id"%string, pv)] ++ e ++ [("sensor_setting_property_id"%string, i); (k, v)]).
  { pose proof (fun ctx r => spid_parse ctx p pv r Hp Rp) as P1. pose proof (fun ctx r => spid_parse ctx z i r Hi Rz) as P2.
    destruct Hc as [E | [E | []]]; injection E as <- <-.
    - exists sensor_SensorSettingGet, []. split; [reflexivity|]. split.
      + unfold sensor_SensorSettingGet. change (fapp (struct_fields sensor_SensorSettingsGet) ?x) with (FCons "sensor_property_id" sensor_SensorPropertyId x).
        revert P1 P2. generalize sensor_SensorPropertyId. intros pc P1 P2. cbn [parse parse_fields]. rewrite P1. cbn [bind]. rewrite P2. subst h. reflexivity.
      + intros v. split; [exists pv; auto|]. unfold sid_name. cbn [app ddel dset String.eqb Ascii.eqb Bool.eqb].
        destruct (String.eqb_spec k "sensor_property_id"); [now elim N1|]. destruct (String.eqb_spec k "sensor_setting_property_id"); [now elim N3|]. reflexivity.
    - destruct Ha as (a & Ra & ->). eexists _, [("sensor_setting_access"%string, VInt a)]. split; [reflexivity|]. split.
      + change (fapp (struct_fields sensor_SensorSettingGet) ?x) with (FCons "sensor_property_id" sensor_SensorPropertyId (FCons "sensor_setting_property_id" sensor_SensorPropertyId x)).
        revert P1 P2. generalize sensor_SensorPropertyId. intros pc P1 P2. change (parse (CStruct ?f) [] ?x) with (let* q := parse_fields f [] x in let (d, r) := (q : dict * list Z) in Ok (VDict d, r)).
        cbn [parse_fields]. rewrite P1. cbn [bind]. rewrite P2. cbn [bind]. change (CInt 1 false) with Int8ul. cbn [app]. rewrite (int8_parse _ _ _ Ra). reflexivity.
      + intros v. split; [exists pv; eauto|]. unfold sid_name. cbn [app ddel dset String.eqb Ascii.eqb Bool.eqb].
        destruct (String.eqb_spec k "sensor_property_id"); [now elim N1|]. destruct (String.eqb_spec k "sensor_setting_access"); [now elim N2|].
        destruct (String.eqb_spec k "sensor_setting_property_id"); [now elim N3|]. reflexivity. }
  destruct G as (hdr & e & -> & G & O). eexists. split; [exact (fun v => proj1 (O v))|].
  assert (S : setting_id properties_PropertyID i = (i, k) /\ as_int i = Some z).
  { split; [|now apply idval_int]. unfold setting_id. rewrite (int_key_as_int _ _ (idval_int _ _ Hi)). destruct K as [(n & M & -> & ->) | (U & -> & ->)]; [now rewrite (member_by_value _ _ _ M)|]. apply unknown_none in U. now rewrite U. }
  destruct S as [S Si]. revert S. clear Hc K. generalize properties_PropertyDict properties_PropertyID. intros cs t S.
  cbn [parse]. rewrite G. cbn [bind]. unfold dgetr. change (dget sid_name ([("sensor_property_id"%string, pv); ("sensor_setting_property_id"%string, i)] ++ e)) with (Some i). cbn [bind].
  rewrite S. unfold as_intr. rewrite Si. cbn [bind]. destruct (find_case z cs) as [[n ct]|] eqn:F.
  - rewrite (parse_case_of _ _ _ _ _ _ F). destruct (parse ct [] s) as [[v r]| |]; cbn [bind fst snd]; [|reflexivity|reflexivity]. now rewrite (proj2 (O v)).
  - now rewrite (proj2 (O _)).
Qed.

(** A setting whose property is unknown: the raw octets go out as they are... *)
Theorem C44_raw_sent : forall c acc d p z h x l, In (c, acc) settings -> gives acc d p z h -> unknown z ->
  dget "sensor_setting_raw" d = Some x -> raw_bytes x l -> build_msg c (VDict d) = Ok (to_le 2 p ++ to_le 2 z ++ h ++ l).
Proof.
  intros c acc d p z h x l Hc G U Hx B. assert (K : value_key z "sensor_setting_raw" (VInt z)) by (right; auto).
  rewrite (setting_build_eq _ _ _ _ _ _ _ _ Hc G K), (unknown_find _ U). unfold rawv. rewrite Hx, (to_bytes_raw _ _ B). reflexivity.
Qed.
(** ... and arrive as the list of those octets. *)
Theorem C44_raw_received : forall c acc p z h l, In (c, acc) settings -> unknown z -> 0 <= p < 65536 -> 0 <= z < 65536 ->
  (if acc then exists a, 0 <= a < 256 /\ h = [a] else h = []) ->
  exists u, parse_msg c (to_le 2 p ++ to_le 2 z ++ h ++ l) = Ok u /\ setting acc p h (VInt z) "sensor_setting_raw" (VList (map VInt l)) u.
Proof.
  intros c acc p z h l Hc U Rp Rz Ha. assert (K : value_key z "sensor_setting_raw" (VInt z)) by (right; auto).
  destruct (setting_parse_eq _ _ _ _ _ _ _ l Hc K Rp Rz Ha) as (out & O & E). exists (out (VList (map VInt l))). unfold parse_msg. rewrite E, (unknown_find _ U). split; [reflexivity|apply O].
Qed.
(** What was received can be sent again, octet for octet. *)
Theorem C44_reencoded : forall c acc p z h l u, In (c, acc) settings -> unknown z -> 0 <= p < 65536 -> 0 <= z < 65536 -> bytes l ->
  (if acc then exists a, 0 <= a < 256 /\ h = [a] else h = []) ->
  parse_msg c (to_le 2 p ++ to_le 2 z ++ h ++ l) = Ok u -> build_msg c u = Ok (to_le 2 p ++ to_le 2 z ++ h ++ l).
Proof.
  intros c acc p z h l u Hc U Rp Rz Bl Ha P. destruct (C44_raw_received c acc p z h l Hc U Rp Rz Ha) as (u' & P' & pv & Hp & S).
  rewrite P in P'. injection P' as <-. destruct acc.
  - destruct S as (a & Ra & -> & ->). apply (C44_raw_sent c true _ p z [a] (VList (map VInt l)) l Hc); [|exact U|reflexivity|split; auto].
    exists pv, (VInt z). repeat split; try reflexivity; try (now apply idval_int); try lia. exists (VInt a), a. repeat split; lia.
  - destruct S as (-> & ->). apply (C44_raw_sent c false _ p z [] (VList (map VInt l)) l Hc); [|exact U|reflexivity|split; auto].
    exists pv, (VInt z). repeat split; try reflexivity; try (now apply idval_int); lia.
Qed.
Print Assumptions C44_raw_sent.
Print Assumptions C44_raw_received.
Print Assumptions C44_reencoded.
(** A known property: its value, under its lower-case name, both ways. *)
Theorem C44_known_sent : forall c acc d p z h n ct x b, In (c, acc) settings -> gives acc d p z h -> property n z ct ->
  dget (lower n) d = Some x -> build_msg ct x = Ok b -> build_msg c (VDict d) = Ok (to_le 2 p ++ to_le 2 z ++ h ++ b).
Proof.
  intros c acc d p z h n ct x b Hc G P Hx B. destruct (property_find _ _ _ P) as [F M]. apply by_value_member in M. assert (K : value_key z (lower n) (VEnum n z)) by (left; eauto).
  rewrite (setting_build_eq _ _ _ _ _ _ _ _ Hc G K), F. unfold rawv. rewrite Hx. unfold build_msg in B. rewrite B. reflexivity.
Qed.
Theorem C44_known_received : forall c acc p z h n ct b v r, In (c, acc) settings -> property n z ct -> 0 <= p < 65536 ->
  (if acc then exists a, 0 <= a < 256 /\ h = [a] else h = []) -> parse ct [] b = Ok (v, r) ->
  exists u, parse c [] (to_le 2 p ++ to_le 2 z ++ h ++ b) = Ok (u, r) /\ setting acc p h (VEnum n z) (lower n) v u.
Proof.
  intros c acc p z h n ct b v r Hc P Rp Ha V. destruct (property_find _ _ _ P) as [F M]. apply by_value_member in M. assert (K : value_key z (lower n) (VEnum n z)) by (left; eauto).
  destruct (property_type _ _ _ P) as (Rz & _).
  destruct (setting_parse_eq _ _ _ _ _ _ _ b Hc K Rp Rz Ha) as (out & O & E). exists (out v). rewrite E, F, V. split; [reflexivity|apply O].
Qed.
(** A value the property does not take is an error, unless the failure is a missing key (then the value is written
    as if it were octets: C09_empty_sensor_setting_refuted). *)
Theorem C44_known_bad_value_rejected : forall c acc d p z h n ct x, In (c, acc) settings -> gives acc d p z h -> property n z ct ->
  dget (lower n) d = Some x -> build_msg ct x = Err EOther -> exists e, build_msg c (VDict d) = Err e.
Proof.
  intros c acc d p z h n ct x Hc G P Hx B. destruct (property_find _ _ _ P) as [F M]. apply by_value_member in M. assert (K : value_key z (lower n) (VEnum n z)) by (left; eauto).
  rewrite (setting_build_eq _ _ _ _ _ _ _ _ Hc G K), F. unfold rawv. rewrite Hx. unfold build_msg in B. rewrite B. cbn [bind]. eauto.
Qed.
(** Without its own key, the value of a known property is looked for under "sensor_setting_raw"; without both, building fails. *)
Theorem C44_known_missing_rejected : forall c acc d p z h n ct, In (c, acc) settings -> gives acc d p z h -> property n z ct ->
  dget (lower n) d = None -> dget "sensor_setting_raw" d = None -> exists e, build_msg c (VDict d) = Err e.
Proof.
  intros c acc d p z h n ct Hc G P Hx Hr. destruct (property_find _ _ _ P) as [F M]. apply by_value_member in M. assert (K : value_key z (lower n) (VEnum n z)) by (left; eauto).
  rewrite (setting_build_eq _ _ _ _ _ _ _ _ Hc G K), F. unfold rawv, dgetn, raw_name. rewrite Hx, Hr.
  destruct (property_type _ _ _ P) as (_ & _ & _ & _ & (e & B) & _). rewrite B. destruct e; cbn [to_bytes bind]; eauto.
Qed.
Theorem C44_known_round_trip : forall c acc d p z h n ct x x', In (c, acc) settings -> gives acc d p z h -> property n z ct ->
  dget (lower n) d = Some x -> message A_spec ct x x' ->
  exists s u, build_msg c (VDict d) = Ok s /\ parse_msg c s = Ok u /\ setting acc p h (VEnum n z) (lower n) x' (pub u).
Proof.
  intros c acc d p z h n ct x x' Hc G P Hx M. destruct (property_type _ _ _ P) as (_ & W & _ & _ & _ & Hh & _).
  destruct (roundtrip A_spec adapters_ok ct x x' W M) as (b & Hb & _ & v & Hu & Eu). unfold parse_msg in Hu. apply bind_ok in Hu as ([v' r] & Hu & Ev). injection Ev as ->.
  pose proof G as (px & zx & _ & _ & Rp & _ & _ & _ & Ha).
  destruct (C44_known_received c acc p z h n ct b v r Hc P Rp) as (u & Pu & S); [destruct acc; [destruct Ha as (y & a & _ & _ & Ra & ->); eauto|exact Ha]|exact Hu|].
  exists (to_le 2 p ++ to_le 2 z ++ h ++ b), u. split; [eapply C44_known_sent; eauto|]. split; [unfold parse_msg; rewrite Pu; reflexivity|].
  destruct S as (pv & Hp & S). exists pv. split; [exact Hp|]. assert (Ep : pub pv = pv) by (destruct Hp as [(m & _ & ->) | (_ & ->)]; reflexivity).
  destruct acc; [destruct S as (a & Ra & Eh & ->); exists a; split; [exact Ra|split; [exact Eh|]] | destruct S as (Eh & ->); split; [exact Eh|]];
    rewrite pub_dict; cbn [pubd hidden]; rewrite Hh, Eu, ?Ep; reflexivity.
Qed.
Print Assumptions C44_known_sent.
Print Assumptions C44_known_received.
Print Assumptions C44_known_bad_value_rejected.
Print Assumptions C44_known_missing_rejected.
Print Assumptions C44_known_round_trip.

(** On reception: no value type ever fails with the KeyError that would make sensor.py:150 fall back to the raw octets ... *)
Definition keyless_adapter (a : adapter) : bool := match a with ACount _ _ _ _ | AEnum _ | ADate | AFixedString | ATimeExp8 => true | _ => false end.
Fixpoint keyless (c : con) : bool :=
  match c with
  | CInt _ _ | CBytesInt _ _ | CBits _ _ | CFlag | CIeee _ | CBytes _ | CPaddedString (EConst _) => true
  | CBitwise c1 | CReversed _ c1 => keyless c1
  | CAdapt a c1 => keyless_adapter a && keyless c1
  | CStruct fs => keyless_fields fs
  | _ => false
  end
with keyless_fields (fs : fields) : bool :=
  match fs with FNil => true | FCons _ c fs => keyless c && keyless_fields fs | FPad _ _ fs => keyless_fields fs | FBits _ bs fs => keyless_fields bs && keyless_fields fs | _ => false end.
Lemma properties_keyless : forallb (fun p => keyless (snd p)) (case_list properties_PropertyDict) = true.
Proof. vm_compute. reflexivity. Qed.
Lemma nokey_bind {A B} (x : res A) (f : A -> res B) : x <> Err EKey -> (forall a, x = Ok a -> f a <> Err EKey) -> bind x f <> Err EKey.
Proof. destruct x as [a|[]|]; cbn [bind]; intros H1 H2; try congruence. now apply H2. Qed.
Lemma take_nokey n s : take n s <> Err EKey. Proof. unfold take. destruct (Nat.leb n (length s)); discriminate. Qed.
Lemma decode_nokey a w : keyless_adapter a = true -> decode a w <> Err EKey.
Proof.
  assert (I : forall v, as_intr v <> Err EKey) by (intros v; unfold as_intr; destruct (as_int v); discriminate).
  destruct a; try discriminate; intros _; cbn [decode].
  - unfold enum_decode. destruct (as_int w); [destruct (by_value _ _)|]; discriminate.
  - apply nokey_bind; [apply I|intros z _; discriminate].
  - apply nokey_bind; [apply I|]. intros z _. destruct (_ && _); discriminate.
  - apply nokey_bind; [apply I|]. intros z _. destruct (_ =? _); discriminate.
Qed.
Lemma keyless_parse : (forall c, keyless c = true -> forall ctx s, parse c ctx s <> Err EKey) /\
  (forall fs, keyless_fields fs = true -> forall ctx s, parse_fields fs ctx s <> Err EKey) /\ (forall cs : cases, True) /\ (forall l : alts, True).
Proof.
  assert (T : forall n s (f : list Z * list Z -> res (val * list Z)), (forall q, f q <> Err EKey) -> bind (take n s) f <> Err EKey).
  { intros n s f H. apply nokey_bind; [apply take_nokey|]. intros q _. apply H. }
  apply con_mutind; try (intros; exact I); intros; try discriminate; cbn [keyless keyless_fields] in *;
    repeat match goal with X : (_ && _)%bool = true |- _ => apply andb_prop in X as [? ?] end.
  - cbn [parse]. apply T. intros [a r]. discriminate.
  - cbn [parse]. apply T. intros [a r]. discriminate.
  - cbn [parse]. apply T. intros [a r]. discriminate.
  - cbn [parse]. destruct s; discriminate.
  - cbn [parse]. apply T. intros [a r]. discriminate.
  - cbn [parse]. apply T. intros [a r]. discriminate.
  - destruct e; try discriminate. cbn [parse eval bind]. destruct (_ <? 0); [discriminate|]. apply T. intros [a r]. destruct (Utf8.utf8_decode _); discriminate.
  - cbn [parse]. apply nokey_bind; [auto|]. intros [d r] _. discriminate.
  - cbn [parse]. apply nokey_bind; [auto|]. intros [v r] _. destruct (bits2bytes r) as [r' [|]]; discriminate.
  - cbn [parse]. apply T. intros [a r]. apply nokey_bind; [auto|]. intros [v [|]] _; discriminate.
  - cbn [parse]. apply nokey_bind; [auto|]. intros [w r] _. apply nokey_bind; [now apply decode_nokey|]. intros v _. discriminate.
  - cbn [parse_fields]. apply nokey_bind; [auto|]. intros [v r] _. auto.
  - cbn [parse_fields]. apply nokey_bind; [apply take_nokey|]. intros [a r] _. auto.
  - cbn [parse_fields]. apply nokey_bind; [apply take_nokey|]. intros [a r] _. apply nokey_bind; [auto|]. intros [bd [|]] _; [auto|discriminate].
Qed.
(** ... so that octets which are not a value of a known property are an error, never raw octets under its name. *)
Theorem C44_known_bad_octets_rejected : forall c acc p z h n ct b e, In (c, acc) settings -> property n z ct -> 0 <= p < 65536 ->
  (if acc then exists a, 0 <= a < 256 /\ h = [a] else h = []) -> parse_msg ct b = Err e ->
  e = EOther /\ parse_msg c (to_le 2 p ++ to_le 2 z ++ h ++ b) = Err EOther.
Proof.
  intros c acc p z h n ct b e Hc P Rp Ha V. destruct (property_find _ _ _ P) as [F M]. apply by_value_member in M. assert (K : value_key z (lower n) (VEnum n z)) by (left; eauto).
  destruct (property_type _ _ _ P) as (Rz & _). unfold parse_msg in V. destruct (setting_parse_eq _ _ _ _ _ _ _ b Hc K Rp Rz Ha) as (out & _ & E). unfold parse_msg. rewrite E, F.
  pose proof (proj1 (forallb_forall _ _) properties_keyless _ P) as N. cbn [snd] in N. pose proof (proj1 keyless_parse ct N [] b) as N'.
  destruct (parse ct [] b) as [[v r]|e'|]; cbn [bind] in V; try discriminate. injection V as ->. destruct e; [congruence|]. split; reflexivity.
Qed.
Print Assumptions C44_known_bad_octets_rejected.
(** a temperature (property 79, one octet) without its octet *)
Example C44_bad_octets : parse_msg sensor_SensorSettingStatus (to_le 2 78 ++ to_le 2 79 ++ [3] ++ []) = Err EOther.
Proof.
  refine (proj2 (C44_known_bad_octets_rejected sensor_SensorSettingStatus true 78 79 [3] "PRESENT_AMBIENT_TEMPERATURE" properties_Temperature8 [] EOther _ _ _ _ _));
    [right; left; reflexivity | apply find_case_list; vm_compute; reflexivity | lia | exists 3; split; [lia|reflexivity] | vm_compute; reflexivity].
Qed.

(** Non-vacuity. *)
Example C44_case : unknown 0x0FF0 /\ gives true [("sensor_property_id"%string, VInt 78); ("sensor_setting_property_id"%string, VInt 0x0FF0); ("sensor_setting_access"%string, VInt 3)] 78 0x0FF0 [3].
Proof.
  split; [apply unknown_none; vm_compute; reflexivity|]. exists (VInt 78), (VInt 0x0FF0). repeat split; try lia. exists (VInt 3), 3. repeat split; lia.
Qed.
Example C43_case : In ("PRESENT_AMBIENT_TEMPERATURE"%string, 79, properties_Temperature8) (case_list properties_PropertyDict) /\
  In (property_GenericAdminPropertySet, true, case_list properties_PropertyDict) carriers /\
  access_octet true [("access"%string, VInt 3)] [3] /\ exists v v', message A_spec properties_Temperature8 v v'.
Proof.
  split; [apply find_case_list; vm_compute; reflexivity|]. split; [unfold carriers; right; left; reflexivity|]. split; [exists (VInt 3), 3; repeat split; lia|].
  destruct temperature_value as (q & _ & H). eauto.
Qed.

(** * P_time: time, time zone and timestamp messages (C32-C35). *)
From Coq Require Import Qabs Lqa.
From Verif Require Import PyVal Bits Float64 FloatX Utf8 Adapters Construct Size Spec Master
  AdapterSpec AdapterProofs1 AdapterProofs2 AdapterProofs3 AdapterProofs4 Access AccessProofs BitLayout Uses P_int P_scale P_transition
  G_time G_elt.

(** the ten octets of a Time Set / Time Status (Mesh Model 5.2.1.2): TAI seconds (5), subsecond, uncertainty,
    authority (1 bit) and TAI-UTC delta (15 bits), time zone offset; multi-octet fields little-endian *)
Definition time_octets (t sub un dl : Z) (au : bool) (tz : Z) : list Z :=
  to_le 5 t ++ [sub; un; (2 * dl + (if au then 1 else 0)) mod 256; (2 * dl + (if au then 1 else 0)) / 256; tz].
Definition wire_time (t sub un dl : Z) (au : val) (tz : Z) : dict :=
  [("tai_seconds"%string, VInt t); ("subsecond"%string, VInt sub); ("uncertainty"%string, VInt un);
   ("tai_utc_delta"%string, VInt dl); ("time_authority"%string, au); ("time_zone_offset"%string, VInt tz)].

Lemma build_le n ctx z : 0 <= z < 256 ^ Z.of_nat n -> build (CBytesInt n true) ctx (VInt z) = Ok (to_le n z).
Proof.
  intros Hz. destruct (C12_bytesint_in_range n true ctx (VInt z) z eq_refl) as (s & -> & Hb & Hl & Hs).
  { rewrite Z.pow_mul_r by lia. exact Hz. }
  f_equal. rewrite (le_of n s Hb Hl), Hs. reflexivity.
Qed.
Lemma parse_le n ctx z r : 0 <= z < 256 ^ Z.of_nat n -> parse (CBytesInt n true) ctx (to_le n z ++ r) = Ok (VInt z, r).
Proof.
  intros Hz. change (parse (CBytesInt n true) ctx ?s) with (let* q := take n s in let (a, r) := (q : list Z * list Z) in Ok (VInt (of_le a), r)).
  rewrite (take_app' n) by apply to_le_length. cbn [bind]. rewrite of_to_le, Z.mod_small by exact Hz. reflexivity.
Qed.
Lemma build_bits_flag dl (au : bool) : 0 <= dl < 32768 ->
  bits2bytes (to_bits 15 dl ++ [if au then 1 else 0] ++ []) = ([(2 * dl + (if au then 1 else 0)) / 256; (2 * dl + (if au then 1 else 0)) mod 256], []).
Proof.
  intros Hd. rewrite app_nil_r. replace [if au then 1 else 0] with (to_bits 1 (if au then 1 else 0)) by (destruct au; reflexivity).
  rewrite to_bits_app by (destruct au; simpl; lia). change (15 + 1)%nat with (8 * 2)%nat. rewrite bits2bytes_to_bits. cbn [to_le rev app].
  change (2 ^ Z.of_nat 1) with 2. rewrite (Z.mul_comm dl 2). rewrite (Z.mod_small (_ / 256)); [reflexivity|].
  destruct au; split; try (apply Z.div_pos; lia); apply Z.div_lt_upper_bound; lia.
Qed.
Lemma build_u1_err ctx z : ~ (0 <= z <= 255) -> build Int8ul ctx (VInt z) = Err EOther.
Proof.
  intros H. cbn [build as_intr as_int bind]. unfold int_min, int_max. change (2 ^ (8 * Z.of_nat 1) - 1) with 255.
  destruct (Z.leb_spec 0 z); [|reflexivity]. destruct (Z.leb_spec z 255); [lia|reflexivity].
Qed.
Section Wire.
Variables (ctx : dict) (t sub un dl tz : Z) (au : bool).
Hypothesis Ht : 1 <= t < 2 ^ 40.
Hypothesis Hdl : 0 <= dl < 32768.
Let w := wire_time t sub un dl (VBool au) tz.
Lemma optional_build_ok : 0 <= sub <= 255 -> 0 <= un <= 255 -> 0 <= tz <= 255 ->
  build time_TimeOptional ctx (VDict w) = Ok (time_octets t sub un dl au tz).
Proof.
  intros Hs Hu Hz. unfold time_TimeOptional, w, wire_time.
  change (build (CStruct ?f) ctx (VDict ?d)) with (build_fields f d d).
  cbn [build_fields]. unfold dgetr. cbn [dget dset String.eqb Ascii.eqb Bool.eqb bind].
  rewrite (build_le 5) by (change (256 ^ Z.of_nat 5) with (2 ^ 40); lia). cbn [bind num_of]. unfold Qzero. cbn [inject_Z Qnum]. destruct (Z.eqb_spec t 0); [lia|].
  rewrite !build_u1 by lia. cbn [bind].
  change (build (CBits 15 false) ?c (VInt dl)) with (if (dl <? 0) && negb false then Err EOther else Ok (to_bits 15 dl)).
  destruct (Z.ltb_spec dl 0); [lia|]. cbn [andb bind]. change (build CFlag ?c (VBool au)) with (Ok [if au then 1 else 0]). cbn [bind].
  rewrite build_bits_flag by lia. cbn [bind rev app]. unfold time_octets. reflexivity.
Qed.
Lemma optional_build_err : ~ (0 <= sub <= 255 /\ 0 <= un <= 255 /\ 0 <= tz <= 255) -> exists e, build time_TimeOptional ctx (VDict w) = Err e.
Proof.
  intros H. unfold time_TimeOptional, w, wire_time.
  change (build (CStruct ?f) ctx (VDict ?d)) with (build_fields f d d).
  cbn [build_fields]. unfold dgetr. cbn [dget dset String.eqb Ascii.eqb Bool.eqb bind].
  rewrite (build_le 5) by (change (256 ^ Z.of_nat 5) with (2 ^ 40); lia). cbn [bind num_of]. unfold Qzero. cbn [inject_Z Qnum]. destruct (Z.eqb_spec t 0); [lia|].
  assert (D : forall z, 0 <= z <= 255 \/ ~ (0 <= z <= 255)) by (intros; lia).
  destruct (D sub); [|rewrite (build_u1_err _ sub) by assumption; cbn [bind]; eauto]. rewrite (build_u1 _ sub) by lia. cbn [bind].
  destruct (D un); [|rewrite (build_u1_err _ un) by assumption; cbn [bind]; eauto]. rewrite (build_u1 _ un) by lia. cbn [bind].
  change (build (CBits 15 false) ?c (VInt dl)) with (if (dl <? 0) && negb false then Err EOther else Ok (to_bits 15 dl)).
  destruct (Z.ltb_spec dl 0); [lia|]. cbn [andb bind]. change (build CFlag ?c (VBool au)) with (Ok [if au then 1 else 0]). cbn [bind].
  rewrite build_bits_flag by lia. cbn [bind].
  rewrite (build_u1_err _ tz) by (intros X; apply H; auto). cbn [bind]. eauto.
Qed.
(** Time Set / Status on the wire: ten octets, or only the seconds when a field is out of range *)
Lemma time_build : build time_Time ctx (VDict w) =
  if (0 <=? sub) && (sub <=? 255) && (0 <=? un) && (un <=? 255) && (0 <=? tz) && (tz <=? 255) then Ok (time_octets t sub un dl au tz) else Ok (to_le 5 t).
Proof.
  unfold time_Time. change (build (CSelect ?l) ctx ?v) with (build_alts l ctx v). cbn [build_alts].
  change (build (CNamed "optional" ?c) ctx (VDict w)) with (build c ctx (VDict w)).
  change (build (CNamed "minimal" ?c) ctx (VDict w)) with (build c ctx (VDict w)).
  destruct (_ && (tz <=? 255)) eqn:E.
  - rewrite !andb_true_iff, !Z.leb_le in E. rewrite optional_build_ok by lia. reflexivity.
  - destruct optional_build_err as (e & ->). { rewrite !andb_false_iff, !Z.leb_gt in E. clear - E. intuition lia. }
    unfold time_TimeMinimal, w, wire_time. change (build (CStruct ?f) ctx (VDict ?d)) with (build_fields f d d).
    cbn [build_fields]. unfold dgetr. cbn [dget dset String.eqb Ascii.eqb Bool.eqb bind].
    rewrite (build_le 5) by (change (256 ^ Z.of_nat 5) with (2 ^ 40); lia). cbn [bind]. now rewrite app_nil_r.
Qed.
End Wire.
Lemma time_parse ctx t sub un dl au tz r : 1 <= t < 2 ^ 40 -> 0 <= dl < 32768 ->
  exists d, parse time_Time ctx (time_octets t sub un dl au tz ++ r) = Ok (VDict d, r)
    /\ dget "tai_seconds" d = Some (VInt t) /\ dget "subsecond" d = Some (VInt sub) /\ dget "uncertainty" d = Some (VInt un)
    /\ dget "tai_utc_delta" d = Some (VInt dl) /\ dget "time_authority" d = Some (VBool au) /\ dget "time_zone_offset" d = Some (VInt tz).
Proof.
  intros Ht Hdl. unfold time_Time. change (parse (CSelect ?l) ctx ?s) with (parse_alts l ctx s). cbn [parse_alts].
  change (parse (CNamed "optional" ?c) ctx ?s) with (let* q := parse c ctx s in let (v, r) := (q : val * list Z) in
      match v with VDict d => Ok (VDict (dset "_name" (VStr (cps "optional")) d), r) | _ => Err EOther end).
  unfold time_TimeOptional. change (parse (CStruct ?f) ctx ?s) with (let* q := parse_fields f [] s in let (d, r) := (q : dict * list Z) in Ok (VDict d, r)).
  unfold time_octets. rewrite <- app_assoc. cbn [parse_fields app].
  rewrite (parse_le 5) by (change (256 ^ Z.of_nat 5) with (2 ^ 40); lia). cbn [bind]. unfold dgetr. cbn [dget dset String.eqb Ascii.eqb Bool.eqb bind num_of].
  unfold Qzero. cbn [inject_Z Qnum]. destruct (Z.eqb_spec t 0); [lia|].
  rewrite !parse_u1. cbn [bind]. rewrite !parse_u1. cbn [bind dset dget String.eqb Ascii.eqb Bool.eqb].
  set (k := 2 * dl + (if au then 1 else 0)).
  change (take 2 (k mod 256 :: k / 256 :: tz :: r)) with (Ok ([k mod 256; k / 256], tz :: r)). cbn [bind rev app].
  assert (Hk : 0 <= k < 65536) by (unfold k; destruct au; lia).
  assert (E : bytes2bits [k / 256; k mod 256] = to_bits 15 dl ++ [if au then 1 else 0]).
  { replace [k / 256; k mod 256] with (rev (to_le 2 k)).
    2:{ cbn [to_le rev app]. rewrite (Z.mod_small (k / 256)); [reflexivity|]. split; [apply Z.div_pos; lia|apply Z.div_lt_upper_bound; lia]. }
    rewrite bytes2bits_le. change (8 * 2)%nat with (15 + 1)%nat. rewrite to_bits_split. change (2 ^ Z.of_nat 1) with 2.
    replace (k / 2) with dl by (unfold k; destruct au; Z.div_mod_to_equations; lia). f_equal.
    replace (to_bits 1 k) with [k mod 2] by reflexivity. f_equal. unfold k. destruct au; Z.div_mod_to_equations; lia. }
  rewrite E. change (parse (CBits 15 false) ?c ?s) with (let* q := take 15 s in let (a, r) := (q : list Z * list Z) in Ok (VInt (of_bits a), r)).
  rewrite (take_app' 15) by apply to_bits_length. cbn [bind]. rewrite of_to_bits. change (2 ^ Z.of_nat 15) with 32768. rewrite (Z.mod_small dl) by lia.
  change (parse CFlag ?c [?b]) with (Ok (VBool (negb (b =? 0)), @nil Z)). cbn [bind dset dget copy_named String.eqb Ascii.eqb Bool.eqb].
  rewrite !parse_u1. cbn [bind dset dget String.eqb Ascii.eqb Bool.eqb].
  eexists. split; [reflexivity|]. cbn [dset dget String.eqb Ascii.eqb Bool.eqb].
  repeat split. destruct au; reflexivity.
Qed.

(** a Time object: aware date, TAI-UTC delta, authority, uncertainty *)
Definition time_object (date delta au unc : val) : val :=
  VDict [("date"%string, date); ("tai_utc_delta"%string, delta); ("time_authority"%string, au); ("uncertainty"%string, unc)].
(** the microsecond nearest to sub/256 s, ties to even *)
Definition microsecond_of (sub m : Z) : Prop :=
  Z.abs (256 * m - 1000000 * sub) <= 128 /\ (Z.abs (256 * m - 1000000 * sub) = 128 -> Z.even m = true).

(** what ten octets mean: the date t + sub/256 s after 2000-01-01, shifted by the zone, in that zone *)
Theorem C32_parse : forall t sub m un dl au tz off r, 1 <= t < 2 ^ 40 -> microsecond_of sub m -> 0 <= dl < 32768 -> off = (tz - 64) * 900 ->
  let us := (t + y2000 + off) * 1000000 + m in
  (-86400 < off < 86400 -> dt_range us -> dt_range (us + off * 1000000) ->
     parse_msg time_TimeStatus (time_octets t sub un dl au tz ++ r)
     = Ok (time_object (VDateTime us off) (VTimedelta ((dl - 255) * 1000000)) (VBool au) (VTimedelta (un * 10000))))
  /\ (~ (-86400 < off < 86400 /\ dt_range us /\ dt_range (us + off * 1000000)) ->
     exists e, parse_msg time_TimeStatus (time_octets t sub un dl au tz ++ r) = Err e).
Proof.
  intros t sub m un dl au tz off r Ht [Hm Hme] Hdl Hoff us.
  unfold parse_msg, time_TimeStatus. rewrite parse_adapt.
  destruct (time_parse [] t sub un dl au tz r Ht Hdl) as (d & -> & G1 & G2 & G3 & G4 & G5 & G6). cbn [bind].
  cbn [decode time_decode]. unfold geti, dgetr. rewrite G1. cbn [bind]. change (as_intr (VInt ?z)) with (Ok z). cbn [bind].
  destruct (Z.eqb_spec t 0); [lia|]. rewrite G6. cbn [bind]. change (as_intr (VInt ?z)) with (Ok z). cbn [bind].
  rewrite G2. cbn [bind]. change (as_intr (VInt ?z)) with (Ok z). cbn [bind].
  unfold zone_seconds. rewrite <- Hoff.
  replace (rne (sub * 1000000) 256) with m.
  2:{ symmetry. apply rne_char; [lia|lia|]. intros X. apply Hme. lia. }
  change mesh_epoch with y2000. fold us. split.
  - intros Ho R1 R2. rewrite (tz_ok_spec off Ho). cbn [negb]. rewrite (proj2 (in_dt_spec _) R1), (proj2 (in_dt_spec _) R2). cbn [andb].
    rewrite G4. cbn [bind]. change (as_intr (VInt ?z)) with (Ok z). cbn [bind]. rewrite G5. cbn [bind]. rewrite G3. cbn [bind].
    change (as_intr (VInt ?z)) with (Ok z). cbn [bind truthy]. reflexivity.
  - intros H. destruct (tz_ok off) eqn:E1; cbn [negb bind]; [|eauto].
    destruct (in_dt us) eqn:E2; cbn [andb bind]; [|eauto]. destruct (in_dt (us + off * 1000000)) eqn:E3; cbn [andb bind]; [|eauto].
    exfalso. apply H. apply in_dt_spec in E2, E3. split; [|auto]. unfold tz_ok in E1. rewrite andb_true_iff, !Z.ltb_lt in E1. lia.
Qed.
Print Assumptions C32_parse.
(** zero seconds: the time is unknown, whatever follows *)
Theorem C32_parse_unknown : forall r, parse_msg time_TimeStatus ([0; 0; 0; 0; 0] ++ r) = Ok (time_object VNone VNone VNone VNone).
Proof.
  intros r. unfold parse_msg, time_TimeStatus. rewrite parse_adapt. reflexivity.
Qed.
Print Assumptions C32_parse_unknown.
(** the two cases above are all the messages of ten octets *)
Theorem C32_octets : forall s, bytes s -> length s = 10%nat ->
  (exists r, s = [0; 0; 0; 0; 0] ++ r) \/
  exists t sub un dl au tz, s = time_octets t sub un dl au tz /\ 1 <= t < 2 ^ 40 /\ isbyte sub /\ isbyte un /\ 0 <= dl < 32768 /\ isbyte tz.
Proof.
  intros s Hb Hl. do 11 (destruct s as [|? s]; try discriminate Hl). clear Hl.
  unfold bytes in Hb. repeat match goal with H : Forall isbyte (_ :: _) |- _ => let A := fresh in inversion H as [|? ? A ?]; subst; clear H end.
  unfold isbyte in *. rename z into a, z0 into b, z1 into c, z2 into d, z3 into e.
  destruct (Z.eq_dec (of_le [a; b; c; d; e]) 0) as [E|E].
  - left. cbn [of_le] in E. assert (a = 0 /\ b = 0 /\ c = 0 /\ d = 0 /\ e = 0) as (-> & -> & -> & -> & ->) by lia. eexists. reflexivity.
  - right. exists (of_le [a; b; c; d; e]), z4, z5, ((z6 + 256 * z7) / 2), (Z.odd z6), z8. split.
    + assert (L : to_le 5 (of_le [a; b; c; d; e]) = [a; b; c; d; e]).
      { symmetry. apply le_of; [|reflexivity]. repeat apply Forall_cons; try assumption; apply Forall_nil. }
      unfold time_octets. rewrite L. cbn [app]. do 7 f_equal.
      assert (K : 2 * ((z6 + 256 * z7) / 2) + (if Z.odd z6 then 1 else 0) = z6 + 256 * z7).
      { pose proof (Zmod_odd z6) as O. destruct (Z.odd z6); Z.div_mod_to_equations; lia. }
      rewrite K. repeat f_equal; Z.div_mod_to_equations; lia.
    + cbn [of_le] in *. repeat split; try lia; Z.div_mod_to_equations; lia.
Qed.
Print Assumptions C32_octets.
(** C32: every date on the 1/256 s grid, with every zone, delta, authority and uncertainty, is sent in the
    documented ten octets and read back as the very object that was sent *)
Theorem C32_round_trip : forall t sub m un dl au tz off,
  1 <= t -> 0 <= sub <= 255 -> microsecond_of sub m -> 0 <= un <= 255 -> ~ In un lossy_delays -> 0 <= dl < 32768 ->
  0 <= tz <= 255 -> off = (tz - 64) * 900 -> -86400 < off < 86400 ->
  (forall x, In x [t + y2000 + off; t + y2000 + 2 * off] -> dt_range (x * 1000000) /\ dt_range ((x + 1) * 1000000)) ->
  let v := time_object (VDateTime ((t + y2000 + off) * 1000000 + m) off) (VTimedelta ((dl - 255) * 1000000)) (VBool au) (VTimedelta (un * 10000)) in
  build_msg time_TimeStatus v = Ok (time_octets t sub un dl au tz)
  /\ parse_msg time_TimeStatus (time_octets t sub un dl au tz) = Ok v.
Proof.
  intros t sub m un dl au tz off Ht Hsub [Hm Hme] Hun Hl Hdl Htz Hoff Hoffr R v.
  destruct (R (t + y2000 + off) (or_introl eq_refl)) as [R1 R2].
  destruct (R (t + y2000 + 2 * off) (or_intror (or_introl eq_refl))) as [R3 R4].
  assert (T40 : t < 2 ^ 40) by (unfold dt_range, y2000 in *; lia).
  assert (Spec : forall d', dget "tai_seconds" d' = Some (VInt t) -> dget "subsecond" d' = Some (VInt sub) -> dget "uncertainty" d' = Some (VInt un) ->
    dget "tai_utc_delta" d' = Some (VInt dl) -> dget "time_authority" d' = Some (VBool au) -> dget "time_zone_offset" d' = Some (VInt tz) ->
    A_spec ATime v (VDict (wire_time t sub un dl (VBool au) tz)) (VDict d') v).
  { intros d' G1 G2 G3 G4 G5 G6. unfold v, time_object. cbn [A_spec].
    eexists _, _, ((t + y2000 + off) * 1000000 + m), off, t, m, sub, _, un, _, dl, (VBool au), tz, d', (VBool au).
    split; [reflexivity|]. split; [reflexivity|]. split; [left; reflexivity|]. split; [exact Hoff|]. split; [exact Hoffr|].
    split; [reflexivity|]. split; [exact Ht|]. split; [lia|]. split; [exact Hsub|]. split; [lia|]. split; [exact R1|]. split.
    { replace (t + 1 + y2000 + off) with (t + y2000 + off + 1) by lia. exact R2. }
    split; [exact R3|]. split. { replace (t + 1 + y2000 + 2 * off) with (t + y2000 + 2 * off + 1) by lia. exact R4. }
    split; [reflexivity|]. split; [split; [reflexivity|exact Hl]|]. split; [exact Hun|]. split; [reflexivity|]. split; [left; reflexivity|].
    split; [exact Hdl|]. split; [reflexivity|]. split; [reflexivity|]. split; [reflexivity|].
    split; [exact G1|]. split; [exact G2|]. split; [exact G3|]. split; [exact G4|]. split; [exact G5|]. split; [now left|]. split; [exact G6|].
    exists m. split; [exact Hm|]. split; [exact Hme|]. reflexivity. }
  split.
  - unfold build_msg, time_TimeStatus. rewrite build_adapt.
    destruct (adapters_ok ATime _ _ _ _ (Spec (wire_time t sub un dl (VBool au) tz) eq_refl eq_refl eq_refl eq_refl eq_refl eq_refl)) as [-> _]. cbn [bind].
    rewrite time_build by lia.
    replace ((0 <=? sub) && (sub <=? 255) && (0 <=? un) && (un <=? 255) && (0 <=? tz) && (tz <=? 255)) with true; [reflexivity|].
    symmetry. rewrite !andb_true_iff, !Z.leb_le. lia.
  - rewrite <- (app_nil_r (time_octets t sub un dl au tz)).
    apply (C32_parse t sub m un dl au tz off []); [lia|split; assumption|exact Hdl|exact Hoff|exact Hoffr| |]; unfold dt_range, y2000 in *; lia.
Qed.
Print Assumptions C32_round_trip.
Example C32_ex : (* 2021-06-15T12:00:00.5+02:00, delta 37 s *)
  build_msg time_TimeStatus (time_object (VDateTime (1623751200 * 1000000 + 500000) 7200) (VTimedelta 37000000) (VBool true) (VTimedelta 20000))
    = Ok (time_octets 677059200 128 2 292 true 72)
  /\ parse_msg time_TimeStatus (time_octets 677059200 128 2 292 true 72)
    = Ok (time_object (VDateTime (1623751200 * 1000000 + 500000) 7200) (VTimedelta 37000000) (VBool true) (VTimedelta 20000)).
Proof. split; vm_compute; reflexivity. Qed.

(** any date, on the grid or not: the seconds are exact, the subsecond is the nearest up to 1/20 of a step *)
Lemma step_bound m k : (- (55 # 100) <= (m # 1000000) * 256 - inject_Z k <= 55 # 100)%Q -> Z.abs (256 * m - 1000000 * k) <= 550000.
Proof.
  intros [S1 S2]. unfold Qle, Qminus, Qmult, Qopp, Qplus, inject_Z in S1, S2. cbn [Qnum Qden] in S1, S2. rewrite ?Pos2Z.inj_mul in S1, S2. lia.
Qed.
Lemma time_total_bounds t off m :
  1 <= t -> -86400 < off < 86400 -> 0 <= m <= 999999 -> Z.abs (t + y2000 + off) <= 2 ^ 38 ->
  let total := fsub (fsub (total_seconds ((t + y2000 + off) * 1000000 + m)) (inject_Z y2000)) (inject_Z off) in
  (inject_Z t <= total)%Q /\ (- (3 # 16384) <= total - inject_Z t - (m # 1000000) <= 3 # 16384)%Q.
Proof.
  intros Ht Hoff Hm Hr total.
  destruct (total_seconds_bounds (t + y2000 + off) m ltac:(lia) ltac:(lia)) as [B1 B2].
  set (q0 := total_seconds ((t + y2000 + off) * 1000000 + m)) in *.
  unfold y2000 in *.
  assert (T1 : (0 <= inject_Z t)%Q /\ (inject_Z t <= 300000000000 # 1)%Q)
    by (split; unfold Qle, inject_Z; cbn [Qnum Qden]; lia).
  assert (O1 : (- (86400 # 1) <= inject_Z off)%Q /\ (inject_Z off <= 86400 # 1)%Q)
    by (split; unfold Qle, inject_Z; cbn [Qnum Qden Qopp]; lia).
  assert (M : (0 <= m # 1000000)%Q /\ (m # 1000000 <= 1)%Q)
    by (split; unfold Qle, Qplus; cbn [Qnum Qden]; lia).
  apply Qabs_Qle_condition in B2 as [B2 B3]. rewrite !inject_Z_plus in B2, B3.
  set (q1 := fsub q0 (inject_Z 946684800)) in *.
  assert (G1 : (inject_Z (t + off) <= q1)%Q).
  { apply fsub_int; [lia|]. replace (t + off + 946684800) with (t + 946684800 + off) by lia. exact B1. }
  assert (E1 : (Qabs (q1 - (q0 - inject_Z 946684800)) <= 1 # 16384)%Q).
  { unfold q1, fsub. eapply Qle_trans; [apply rnd64_bounds|].
    assert (Qabs (q0 - inject_Z 946684800) <= 549755813888 # 1)%Q by (apply Qabs_Qle_condition; lra). lra. }
  apply Qabs_Qle_condition in E1 as [E1a E1b].
  assert (G2 : (inject_Z t <= total)%Q) by (apply fsub_int; [lia|exact G1]).
  assert (E2 : (Qabs (total - (q1 - inject_Z off)) <= 1 # 16384)%Q).
  { unfold total, fsub. eapply Qle_trans; [apply rnd64_bounds|].
    assert (Qabs (q1 - inject_Z off) <= 549755813888 # 1)%Q by (apply Qabs_Qle_condition; lra). lra. }
  apply Qabs_Qle_condition in E2 as [E2a E2b].
  clearbody total. clearbody q1. clearbody q0.
  split; [exact G2|]. lra.
Qed.
(** [round((seconds - int(seconds)) * 256)] is within 0.505 of 256 times the fraction *)
Lemma subsecond_bound total t x : (0 <= total - inject_Z t <= 2)%Q -> (- (3 # 16384) <= total - inject_Z t - x <= 3 # 16384)%Q ->
  (- (55 # 100) <= x * 256 - inject_Z (rneQ (fmul (fsub total (inject_Z t)) 256)) <= 55 # 100)%Q.
Proof.
  intros R D0. set (q3 := fsub total (inject_Z t)).
  assert (E3 : (Qabs (q3 - (total - inject_Z t)) <= 1 # 1000000)%Q).
  { unfold q3, fsub. eapply Qle_trans; [apply rnd64_bounds|].
    assert (Qabs (total - inject_Z t) <= 2)%Q by (apply Qabs_Qle_condition; lra). lra. }
  apply Qabs_Qle_condition in E3 as [E3a E3b].
  set (q4 := fmul q3 256).
  assert (E4 : (Qabs (q4 - q3 * 256) <= 1 # 1000000)%Q).
  { unfold q4, fmul. eapply Qle_trans; [apply rnd64_bounds|].
    assert (Qabs (q3 * 256) <= 1000)%Q by (apply Qabs_Qle_condition; lra). lra. }
  apply Qabs_Qle_condition in E4 as [E4a E4b].
  pose proof (rneQ_bound q4) as B. apply Qabs_Qle_condition in B as [Ba Bb]. clearbody q3 q4.
  set (k := rneQ q4) in *. clearbody k. split; lra.
Qed.
Lemma time_split_any t off m :
  1 <= t -> -86400 < off < 86400 -> 0 <= m <= 999800 -> Z.abs (t + y2000 + off) <= 2 ^ 38 ->
  let total := fsub (fsub (total_seconds ((t + y2000 + off) * 1000000 + m)) (inject_Z y2000)) (inject_Z off) in
  ftrunc total = t /\ Z.abs (256 * m - 1000000 * rneQ (fmul (fsub total (inject_Z t)) 256)) <= 550000.
Proof.
  intros Ht Hoff Hm Hr total. destruct (time_total_bounds t off m Ht Hoff ltac:(lia) Hr) as [G D]. fold total in G, D. clearbody total.
  assert (M : (0 <= m # 1000000)%Q /\ (m # 1000000 <= 9998 # 10000)%Q) by (split; unfold Qle, Qplus; cbn [Qnum Qden]; lia).
  split.
  - apply ftrunc_bounds; [exact G| |lia]. rewrite inject_Z_plus. change (inject_Z 1) with 1%Q. lra.
  - apply step_bound, subsecond_bound; lra.
Qed.
(** in the last 0.2 ms of a second the sum may be rounded to the next second *)
Lemma time_split_end t off m :
  1 <= t -> -86400 < off < 86400 -> 999800 < m <= 999999 -> Z.abs (t + y2000 + off) <= 2 ^ 38 ->
  let total := fsub (fsub (total_seconds ((t + y2000 + off) * 1000000 + m)) (inject_Z y2000)) (inject_Z off) in
  (ftrunc total = t /\ rneQ (fmul (fsub total (inject_Z t)) 256) = 256) \/
  (ftrunc total = t + 1 /\ rneQ (fmul (fsub total (inject_Z (t + 1))) 256) = 0).
Proof.
  intros Ht Hoff Hm Hr total. destruct (time_total_bounds t off m Ht Hoff ltac:(lia) Hr) as [G D]. fold total in G, D. clearbody total.
  assert (M : (9998 # 10000 < m # 1000000)%Q /\ (m # 1000000 <= 1)%Q) by (split; unfold Qlt, Qle, Qplus; cbn [Qnum Qden]; lia).
  destruct (Qlt_le_dec total (inject_Z (t + 1))) as [L|L].
  - left. split; [apply ftrunc_bounds; [exact G|exact L|lia]|]. rewrite inject_Z_plus in L. change (inject_Z 1) with 1%Q in L.
    assert (B := subsecond_bound total t (m # 1000000) ltac:(lra) D). set (k := rneQ _) in *. clearbody k.
    assert (255 < k < 257); [|lia]. rewrite !Zlt_Qlt. change (inject_Z 255) with 255%Q. change (inject_Z 257) with 257%Q. lra.
  - right. split.
    + apply ftrunc_bounds; [exact L| |lia]. rewrite !inject_Z_plus. change (inject_Z 1) with 1%Q. lra.
    + assert (Dx : (0 <= total - inject_Z (t + 1) <= 3 # 16384)%Q).
      { rewrite inject_Z_plus in L |- *. change (inject_Z 1) with 1%Q in *. lra. }
      assert (B := subsecond_bound total (t + 1) 0 ltac:(lra) ltac:(lra)). set (k := rneQ _) in *. clearbody k.
      assert (-1 < k < 1); [|lia]. rewrite !Zlt_Qlt. change (inject_Z (-1)) with (-1)%Q. change (inject_Z 1) with 1%Q. lra.
Qed.
(** the arguments of a complete Time object *)
Record complete (v : val) (t m off un dl : Z) (au : bool) : Prop := {
  c_obj : v = time_object (VDateTime ((t + y2000 + off) * 1000000 + m) off) (VTimedelta ((dl - 255) * 1000000)) (VBool au) (VTimedelta (un * 10000));
  c_t : 1 <= t; c_m : 0 <= m <= 999999; c_off : exists tz, 0 <= tz <= 255 /\ off = (tz - 64) * 900; c_offr : -86400 < off < 86400;
  c_un : 0 <= un <= 255 /\ ~ In un lossy_delays; c_dl : 0 <= dl < 32768; c_r : dt_range ((t + y2000 + off) * 1000000) }.
Lemma complete_encode v t m off un dl au : complete v t m off un dl au -> exists T sub, 
  encode ATime v = Ok (VDict (wire_time T sub un dl (VBool au) (off / 900 + 64))) /\ Z.abs (256 * (t * 1000000 + m) - 1000000 * (256 * T + sub)) <= 550000
  /\ 0 <= sub <= 256 /\ (m <= 999800 -> T = t) /\ t <= T <= t + 1 /\ 0 <= off / 900 + 64 <= 255 /\ off = (off / 900 + 64 - 64) * 900 /\ T < 2 ^ 40.
Proof.
  intros [-> Ht Hm (tz & Htz & Hoff) Hoffr [Hun Hl] Hdl Hr].
  pose proof (us_seconds_range _ Hr) as HR.
  assert (P : let total := fsub (fsub (total_seconds ((t + y2000 + off) * 1000000 + m)) (inject_Z y2000)) (inject_Z off) in
    exists T sub, ftrunc total = T /\ rneQ (fmul (fsub total (inject_Z T)) 256) = sub /\ Z.abs (256 * (t * 1000000 + m) - 1000000 * (256 * T + sub)) <= 550000
      /\ 0 <= sub <= 256 /\ (m <= 999800 -> T = t) /\ t <= T <= t + 1).
  { intros total. destruct (Z_le_gt_dec m 999800) as [L|L].
    - destruct (time_split_any t off m Ht Hoffr ltac:(lia) HR) as [T1 T2]. fold total in T1, T2. exists t, (rneQ (fmul (fsub total (inject_Z t)) 256)).
      repeat split; try assumption; lia.
    - destruct (time_split_end t off m Ht Hoffr ltac:(lia) HR) as [[T1 T2]|[T1 T2]]; fold total in T1, T2.
      + exists t, 256. repeat split; try assumption; lia.
      + exists (t + 1), 0. repeat split; try assumption; lia. }
  cbv zeta in P. destruct P as (T & sub & T1 & T2 & T3 & T4 & T5 & T6). exists T, sub. split; [|split; [exact T3|split; [exact T4|split; [exact T5|split; [exact T6|]]]]].
  - cbn [encode]. unfold time_object, time_encode, dgetr. cbn [dget String.eqb Ascii.eqb Bool.eqb bind datetime_of uncertainty_us delta_us].
    rewrite (delta_mesh dl Hdl). cbn [bind]. rewrite (uncertainty_fixed un Hun Hl).
    replace (zone_to_mesh off) with (Ok tz) by (rewrite Hoff; symmetry; apply zone_mesh). cbn [bind].
    replace tz with (off / 900 + 64) by (rewrite Hoff, Z.div_mul by lia; lia).
    change mesh_epoch with y2000. rewrite T1, T2. reflexivity.
  - rewrite Hoff, Z.div_mul by lia. unfold dt_range, y2000 in *. lia.
Qed.
Theorem C32_any_date : forall v t m off un dl au, complete v t m off un dl au -> m <= 997800 ->
  dt_range ((t + y2000 + 2 * off) * 1000000) -> dt_range ((t + 1 + y2000 + 2 * off) * 1000000) -> dt_range ((t + 1 + y2000 + off) * 1000000) ->
  exists sub m', build_msg time_TimeStatus v = Ok (time_octets t sub un dl au (off / 900 + 64)) /\ 0 <= sub <= 255
    /\ parse_msg time_TimeStatus (time_octets t sub un dl au (off / 900 + 64))
       = Ok (time_object (VDateTime ((t + y2000 + off) * 1000000 + m') off) (VTimedelta ((dl - 255) * 1000000)) (VBool au) (VTimedelta (un * 10000)))
    /\ Z.abs (m' - m) <= 2150.
Proof.
  intros v t m off un dl au C Hm R3 R4 R2. destruct (complete_encode _ _ _ _ _ _ _ C) as (T & sub & He & Hsub & Hr & HT & _ & Hz & Hoff & T40).
  specialize (HT ltac:(lia)). subst T.
  destruct C as [_ Ht Hm' _ Hoffr [Hun Hl] Hdl R1].
  assert (S : 0 <= sub <= 255) by lia.
  assert (Hex : exists m', microsecond_of sub m').
  { exists (rne (sub * 1000000) 256). pose proof (rne_bound (sub * 1000000) 256 ltac:(lia)). split; [lia|].
    intros E. unfold rne in *.
    pose proof (Z.div_mod (sub * 1000000) 256 ltac:(lia)) as D. pose proof (Z.mod_pos_bound (sub * 1000000) 256 ltac:(lia)) as M.
    destruct (Z.compare_spec (2 * ((sub * 1000000) mod 256)) 256) as [X|X|X]; [|lia|lia].
    destruct (Z.even (sub * 1000000 / 256)) eqn:Ev; [exact Ev|]. rewrite Z.add_1_r, Z.even_succ, <- Z.negb_even, Ev. reflexivity. }
  destruct Hex as (m' & Hm2). exists sub, m'. split; [|split; [exact S|split]].
  - unfold build_msg, time_TimeStatus. rewrite build_adapt, He. cbn [bind]. rewrite time_build by lia.
    replace (_ && _) with true; [reflexivity|]. symmetry. rewrite !andb_true_iff, !Z.leb_le. lia.
  - rewrite <- (app_nil_r (time_octets t sub un dl au (off / 900 + 64))).
    assert (0 <= m' < 1000000) by (destruct Hm2; lia).
    apply (C32_parse t sub m' un dl au (off / 900 + 64) off []); [lia|exact Hm2|exact Hdl|exact Hoff|exact Hoffr| |]; unfold dt_range, y2000 in *; lia.
  - destruct Hm2 as [Hm2 _]. lia.
Qed.
Print Assumptions C32_any_date.

(** C33: for every complete object the time is rounded to 1/256 s, to [T] seconds and [sub] steps; all the fields are sent
    when [sub] is below 256, only the seconds otherwise *)
Theorem C33_complete_or_seconds : forall v t m off un dl au, complete v t m off un dl au ->
  exists T sub, 0 <= sub <= 256 /\ Z.abs (256 * (t * 1000000 + m) - 1000000 * (256 * T + sub)) <= 550000 /\ (m <= 999800 -> T = t) /\
    build_msg time_TimeStatus v = Ok (if sub =? 256 then to_le 5 T else time_octets T sub un dl au (off / 900 + 64)).
Proof.
  intros v t m off un dl au C. destruct (complete_encode _ _ _ _ _ _ _ C) as (T & sub & He & Hsub & Hr & HT & HT' & Hz & Hoff & T40).
  destruct C as [_ Ht Hm' _ Hoffr [Hun Hl] Hdl R1]. exists T, sub. split; [lia|]. split; [exact Hsub|]. split; [exact HT|].
  unfold build_msg, time_TimeStatus. rewrite build_adapt, He. cbn [bind]. rewrite time_build by lia.
  destruct (Z.eqb_spec sub 256) as [E|E].
  - replace (_ && _) with false; [reflexivity|]. symmetry. destruct (Z.leb_spec sub 255); [lia|]. rewrite andb_false_r. reflexivity.
  - replace (_ && _) with true; [reflexivity|]. symmetry. rewrite !andb_true_iff, !Z.leb_le. lia.
Qed.
Print Assumptions C33_complete_or_seconds.
(** so everything is sent for a fraction of a second up to 0.9978 *)
Theorem C33_complete_message : forall v t m off un dl au, complete v t m off un dl au -> m <= 997800 ->
  exists sub, 0 <= sub <= 255 /\ build_msg time_TimeStatus v = Ok (time_octets t sub un dl au (off / 900 + 64)).
Proof.
  intros v t m off un dl au C Hm. destruct (C33_complete_or_seconds _ _ _ _ _ _ _ C) as (T & sub & Hs & Hd & HT & Hb). specialize (HT ltac:(lia)). subst T.
  exists sub. destruct (Z.eqb_spec sub 256); [lia|]. split; [lia|exact Hb].
Qed.
Print Assumptions C33_complete_message.
(** and from 0.9983 to 0.9998 s everything but the seconds is silently dropped *)
Theorem C33_complete_message_refuted : forall v t m off un dl au, complete v t m off un dl au -> 998300 <= m <= 999800 ->
  build_msg time_TimeStatus v = Ok (to_le 5 t).
Proof.
  intros v t m off un dl au C Hm. destruct (C33_complete_or_seconds _ _ _ _ _ _ _ C) as (T & sub & Hs & Hd & HT & Hb). specialize (HT ltac:(lia)). subst T.
  destruct (Z.eqb_spec sub 256); [exact Hb|lia].
Qed.
Print Assumptions C33_complete_message_refuted.
(** and such a five-octet message cannot be parsed *)
Theorem C33_short_message_rejected : forall t, 1 <= t < 2 ^ 40 -> exists e, parse_msg time_TimeStatus (to_le 5 t) = Err e.
Proof.
  intros t Ht. unfold parse_msg, time_TimeStatus. rewrite parse_adapt. rewrite <- (app_nil_r (to_le 5 t)).
  unfold time_Time. change (parse (CSelect ?l) [] ?s) with (parse_alts l [] s). cbn [parse_alts].
  change (parse (CNamed ?n ?c) [] ?s) with (let* q := parse c [] s in let (v, r) := (q : val * list Z) in
      match v with VDict d => Ok (VDict (dset "_name" (VStr (cps n)) d), r) | _ => Err EOther end).
  unfold time_TimeOptional, time_TimeMinimal. change (parse (CStruct ?f) [] ?s) with (let* q := parse_fields f [] s in let (d, r) := (q : dict * list Z) in Ok (VDict d, r)).
  cbn [parse_fields].
  rewrite (parse_le 5) by (change (256 ^ Z.of_nat 5) with (2 ^ 40); lia). cbn [bind]. unfold dgetr. cbn [dget dset String.eqb Ascii.eqb Bool.eqb bind num_of].
  unfold Qzero. cbn [inject_Z Qnum]. destruct (Z.eqb_spec t 0); [lia|].
  change (parse Int8ul ?c []) with (@Err (val * list Z) EOther). cbn [bind].
  cbn [decode time_decode]. unfold geti, dgetr. cbn [dset dget String.eqb Ascii.eqb Bool.eqb bind]. change (as_intr (VInt ?z)) with (Ok z). cbn [bind].
  destruct (Z.eqb_spec t 0); [lia|]. cbn [bind]. eauto.
Qed.
Print Assumptions C33_short_message_rejected.
Example C33_ex : exists v, complete v 677059200 999000 0 0 255 false /\ build_msg time_TimeStatus v = Ok [128; 26; 91; 40; 0]
  /\ exists e, parse_msg time_TimeStatus [128; 26; 91; 40; 0] = Err e.
Proof.
  eexists. split; [|split].
  - split; try reflexivity; try lia.
    + exists 64. lia.
    + split; [lia|]. vm_compute. intuition discriminate.
    + vm_compute. split; [discriminate|reflexivity].
  - vm_compute. reflexivity.
  - eexists. vm_compute. reflexivity.
Qed.

(** ** C34: zone and delta.  A zone offset of [off] seconds is octet 9 with bias 64 in units of 15 minutes, a delta of
    [x] seconds the upper 15 bits of octets 7-8 with bias 255; both come back *)
Lemma octets_nth t sub un dl au tz : 0 <= dl < 32768 -> let s := time_octets t sub un dl au tz in
  nth 9 s (-1) = tz /\ (nth 7 s (-1) + 256 * nth 8 s (-1)) / 2 = dl /\ nth 6 s (-1) = un.
Proof.
  intros Hdl. unfold time_octets. cbv zeta. assert (L : length (to_le 5 t) = 5%nat) by apply to_le_length. destruct (to_le 5 t) as [|x l]; [discriminate L|].
  do 5 (destruct l as [|? l]; try discriminate L). cbn [app nth].
  split; [reflexivity|]. split; [destruct au; Z.div_mod_to_equations; lia|reflexivity].
Qed.
Theorem C34_zone_and_delta : forall v t m off un dl au, complete v t m off un dl au -> m <= 997800 ->
  dt_range ((t + y2000 + 2 * off) * 1000000) -> dt_range ((t + 1 + y2000 + 2 * off) * 1000000) -> dt_range ((t + 1 + y2000 + off) * 1000000) ->
  exists s d, build_msg time_TimeStatus v = Ok s /\ nth 9 s (-1) = off / (15 * 60) + 0x40
    /\ (nth 7 s (-1) + 256 * nth 8 s (-1)) / 2 = (dl - 255) + 0xFF
    /\ parse_msg time_TimeStatus s = Ok (VDict d) /\ dget "tai_utc_delta" d = Some (VTimedelta ((dl - 255) * 1000000))
    /\ exists us, dget "date" d = Some (VDateTime us off).
Proof.
  intros v t m off un dl au C Hm R1 R2 R3. destruct (C32_any_date v t m off un dl au C Hm R1 R2 R3) as (sub & m' & Hb & Hs & Hp & _).
  destruct C as [_ Ht Hm' _ Hoffr [Hun Hl] Hdl R].
  destruct (octets_nth t sub un dl au (off / 900 + 64) Hdl) as (N1 & N2 & _). cbv zeta in N1, N2.
  eexists _, _. split; [exact Hb|]. split; [exact N1|]. split; [rewrite N2; lia|]. split; [exact Hp|].
  split; [reflexivity|]. eexists. reflexivity.
Qed.
Print Assumptions C34_zone_and_delta.
(** offsets off the grid are rejected, and so are fractional deltas *)
Theorem C34_zone_off_grid_rejected : forall us off delta au unc, off mod 900 <> 0 ->
  exists e, build_msg time_TimeStatus (time_object (VDateTime us off) delta au unc) = Err e.
Proof.
  intros us off delta au unc H. unfold build_msg, time_TimeStatus. rewrite build_adapt. cbn [encode]. unfold time_object, time_encode, dgetr.
  cbn [dget String.eqb Ascii.eqb Bool.eqb bind datetime_of].
  assert (Z : zone_to_mesh off = Err EOther). { unfold zone_to_mesh. destruct (Z.eqb_spec (off mod 900) 0); [contradiction|reflexivity]. }
  rewrite Z. clear Z.
  destruct (match unc with VInt _ | VBool _ | VEnum _ _ => Err EOther | _ => uncertainty_us unc end) as [u|e|] eqn:E; cbn [bind]; [|eauto|].
  2:{ destruct unc; discriminate E. }
  destruct (delta_us delta) as [x|e|] eqn:E2; cbn [bind]; [|eauto|].
  2:{ destruct delta; discriminate E2. }
  destruct (delta_to_mesh x) as [y|e|] eqn:E3; cbn [bind]; [eauto|eauto|].
  unfold delta_to_mesh in E3. destruct (Pos.eqb _ _); discriminate E3.
Qed.
Print Assumptions C34_zone_off_grid_rejected.
Lemma fraction_rejected us : us mod 1000000 <> 0 -> Z.abs us <= 2 ^ 32 * 1000000 -> delta_to_mesh us = Err EOther.
Proof.
  intros H Hu. unfold delta_to_mesh, total_seconds. destruct (Pos.eqb_spec (Qden (rnd64 (us # 1000000))) 1) as [E|E]; [exfalso|reflexivity].
  pose proof (rnd64_bounds (us # 1000000)) as B.
  destruct (rnd64 (us # 1000000)) as [k d]. cbn [Qden] in E. subst d. change (k # 1) with (inject_Z k) in B.
  apply H. apply Z.mod_divide; [lia|]. exists k.
  assert (A : (Qabs (us # 1000000) <= 4294967296 # 1)%Q). { unfold Qabs, Qle. cbn [Qnum Qden]. lia. }
  assert (B2 : (Qabs (inject_Z k - (us # 1000000)) < 1 # 1000000)%Q) by lra.
  apply Qabs_Qlt_condition in B2 as [B2 B3]. clear B A. unfold Qlt, Qminus, Qplus, Qopp, inject_Z in B2, B3. cbn [Qnum Qden] in B2, B3. lia.
Qed.
Theorem C34_fractional_delta_rejected : forall date x au unc, x mod 1000000 <> 0 -> Z.abs x <= 2 ^ 32 * 1000000 ->
  exists e, build_msg time_TimeStatus (time_object date (VTimedelta x) au unc) = Err e.
Proof.
  intros date x au unc H1 H2. unfold build_msg, time_TimeStatus. rewrite build_adapt. cbn [encode]. unfold time_object, time_encode, dgetr.
  cbn [dget String.eqb Ascii.eqb Bool.eqb bind delta_us]. rewrite (fraction_rejected x H1 H2).
  destruct (datetime_of date) as [[u o]|e|] eqn:E; cbn [bind]; [|eauto|].
  2:{ exfalso. revert E. clear. intros E. destruct date; try discriminate E. cbn [datetime_of] in E. unfold geti, dgetr, as_intr in E.
      repeat (first [discriminate E | match type of E with context [match ?x with _ => _ end] => destruct x end; cbn [bind] in E]). }
  destruct (match unc with VInt _ | VBool _ | VEnum _ _ => Err EOther | _ => uncertainty_us unc end) as [w|e|] eqn:E2; cbn [bind]; [eauto|eauto|].
  destruct unc; discriminate E2.
Qed.
Print Assumptions C34_fractional_delta_rejected.
(** ... but a whole delta below -255 s or an uncertainty above 2.55 s is not: only the seconds are sent *)
Theorem C34_out_of_range_delta_refuted : exists t, build_msg time_TimeStatus
  (time_object (VDateTime ((677059200 + y2000) * 1000000) 0) (VTimedelta (-256000000)) (VBool true) (VTimedelta 20000)) = Ok (to_le 5 t)
  /\ build_msg time_TimeStatus (time_object (VDateTime ((677059200 + y2000) * 1000000) 0) (VTimedelta 37000000) (VBool true) (VTimedelta 2560000)) = Ok (to_le 5 t).
Proof. exists 677059200. split; vm_compute; reflexivity. Qed.
Print Assumptions C34_out_of_range_delta_refuted.
Example C34_ex : exists e, build_msg time_TimeStatus (time_object (VDateTime ((677059200 + y2000) * 1000000) 600) (VTimedelta 37000000) (VBool true) (VTimedelta 0)) = Err e.
Proof. apply C34_zone_off_grid_rejected. discriminate. Qed.
(** the date may also be a {year, ..., time_zone_offset} dict and the delta a number of seconds *)
Theorem C32_other_spellings : forall dv us off delta dl au unc, a_datetime dv us off ->
  (delta = VTimedelta ((dl - 255) * 1000000) \/ as_int delta = Some (dl - 255)) ->
  build_msg time_TimeStatus (time_object dv delta au unc)
  = build_msg time_TimeStatus (time_object (VDateTime us off) (VTimedelta ((dl - 255) * 1000000)) au unc).
Proof.
  intros dv us off delta dl au unc Hd Hl. unfold build_msg, time_TimeStatus. rewrite !build_adapt. f_equal. cbn [encode].
  unfold time_object, time_encode, dgetr. cbn [dget String.eqb Ascii.eqb Bool.eqb bind delta_us].
  rewrite (datetime_spec dv us off Hd), (delta_us_spec delta dl Hl). reflexivity.
Qed.
Print Assumptions C32_other_spellings.
(** uncertainties: centiseconds; the listed ones are sent one centisecond too low *)
Theorem C32_uncertainty_octet : forall un, 0 <= un <= 255 ->
  ftrunc (fmul (total_seconds (un * 10000)) 100) = if zmem un lossy_delays then un - 1 else un.
Proof.
  intros un Hun.
  assert (C : forallb (fun un => ftrunc (fmul (total_seconds (un * 10000)) 100) =? (if zmem un lossy_delays then un - 1 else un)) (upto 256) = true) by (vm_compute; reflexivity).
  apply Z.eqb_eq. exact (forallb_upto _ _ C un ltac:(lia)).
Qed.
Print Assumptions C32_uncertainty_octet.

(** ** C35: emergency lighting test timestamps: TAI seconds (5 octets), zone (1), TAI-UTC delta (2) *)
Definition Timestamp : con := CAdapt ATimestamp elt_Timestamp.
Definition stamp_octets (t tz raw : Z) : list Z := to_le 5 t ++ [tz] ++ to_le 2 raw.
Definition stamp_object (date delta : val) : val := VDict [("date"%string, date); ("tai_utc_delta"%string, delta)].
Lemma stamp_build ctx t tz raw : 0 <= t < 2 ^ 40 -> 0 <= tz <= 255 -> 0 <= raw < 65536 ->
  build elt_Timestamp ctx (VDict [("tai_seconds"%string, VInt t); ("tai_utc_delta_raw"%string, VInt raw); ("time_zone_offset"%string, VInt tz)])
  = Ok (stamp_octets t tz raw).
Proof.
  intros Ht Hz Hr. unfold elt_Timestamp. change (build (CStruct ?f) ctx (VDict ?d)) with (build_fields f d d).
  cbn [build_fields]. unfold dgetr. cbn [dget dset String.eqb Ascii.eqb Bool.eqb bind].
  rewrite (build_le 5) by (change (256 ^ Z.of_nat 5) with (2 ^ 40); lia). cbn [bind]. rewrite build_u1 by lia. cbn [bind].
  rewrite (build_le 2) by (change (256 ^ Z.of_nat 2) with 65536; lia). cbn [bind]. unfold stamp_octets. now rewrite app_nil_r.
Qed.
Lemma stamp_parse ctx t tz raw r : 0 <= t < 2 ^ 40 -> 0 <= raw < 65536 ->
  parse elt_Timestamp ctx (stamp_octets t tz raw ++ r)
  = Ok (VDict [("tai_seconds"%string, VInt t); ("time_zone_offset"%string, VInt tz); ("tai_utc_delta_raw"%string, VInt raw)], r).
Proof.
  intros Ht Hr. unfold elt_Timestamp. change (parse (CStruct ?f) ctx ?s) with (let* q := parse_fields f [] s in let (d, r) := (q : dict * list Z) in Ok (VDict d, r)).
  unfold stamp_octets. rewrite <- !app_assoc. cbn [parse_fields].
  rewrite (parse_le 5) by (change (256 ^ Z.of_nat 5) with (2 ^ 40); lia). cbn [bind app]. rewrite parse_u1. cbn [bind].
  rewrite (parse_le 2) by (change (256 ^ Z.of_nat 2) with 65536; lia). cbn [bind dset String.eqb Ascii.eqb Bool.eqb]. reflexivity.
Qed.
(** UTC = TAI - delta, in the zone given; out-of-range zones and dates and a set padding bit are errors *)
Theorem C35_parse : forall t tz dl r, 0 <= t < 2 ^ 40 -> 0 <= dl < 32768 ->
  let off := (tz - 64) * 900 in let us := (t + y2000 - (dl - 255)) * 1000000 in
  (-86400 < off < 86400 -> (forall x, In x [t + y2000; t + y2000 + off; t + y2000 + off - (dl - 255)] -> dt_range (x * 1000000)) ->
     parse_msg Timestamp (stamp_octets t tz dl ++ r) = Ok (stamp_object (VDateTime us off) (VTimedelta ((dl - 255) * 1000000))))
  /\ (exists e, parse_msg Timestamp (stamp_octets t tz (dl + 32768) ++ r) = Err e).
Proof.
  intros t tz dl r Ht Hdl off us. unfold parse_msg, Timestamp. rewrite !parse_adapt. rewrite !stamp_parse by lia. cbn [bind].
  cbn [decode]. unfold timestamp_decode, geti, dgetr. cbn [dget String.eqb Ascii.eqb Bool.eqb bind]. change (as_intr (VInt ?z)) with (Ok z). cbn [bind].
  split.
  - intros Ho R. rewrite (Z.mod_small dl 32768), (Z.div_small dl 32768) by lia. cbn [Z.odd]. unfold zone_seconds. fold off. rewrite (tz_ok_spec off Ho). cbn [negb].
    unfold delta_of_mesh. change mesh_epoch with y2000.
    pose proof (R (t + y2000) ltac:(simpl; auto)) as R1. pose proof (R (t + y2000 + off) ltac:(simpl; auto)) as R2. pose proof (R (t + y2000 + off - (dl - 255)) ltac:(simpl; auto)) as R3.
    rewrite (proj2 (in_dt_spec _) R1).
    rewrite (proj2 (in_dt_spec _)) by (unfold dt_range in *; lia). rewrite (proj2 (in_dt_spec _)) by (unfold dt_range in *; lia). cbn [andb bind].
    unfold stamp_object. repeat f_equal. unfold us. lia.
  - replace ((dl + 32768) / 32768) with 1 by (Z.div_mod_to_equations; lia). cbn [Z.odd bind]. eauto.
Qed.
Print Assumptions C35_parse.
(** what was decoded is encoded to the same octets *)
Theorem C35_round_trip : forall t tz dl, 0 <= t < 2 ^ 40 -> 0 <= dl < 32768 -> 0 <= tz <= 255 ->
  let off := (tz - 64) * 900 in -86400 < off < 86400 ->
  (forall x, In x [t + y2000; t + 1 + y2000; t + y2000 + off; t + y2000 + off - (dl - 255); t + y2000 - (dl - 255)] -> dt_range (x * 1000000)) ->
  exists u, parse_msg Timestamp (stamp_octets t tz dl) = Ok u /\ build_msg Timestamp u = Ok (stamp_octets t tz dl).
Proof.
  intros t tz dl Ht Hdl Htz off Ho R. eexists. split.
  - rewrite <- (app_nil_r (stamp_octets t tz dl)). apply (C35_parse t tz dl []); [exact Ht|exact Hdl|exact Ho|].
    intros x Hx. apply R. simpl in *. intuition.
  - unfold build_msg, Timestamp. rewrite build_adapt. fold off.
    assert (S : A_spec ATimestamp (stamp_object (VDateTime ((t + y2000 - (dl - 255)) * 1000000) off) (VTimedelta ((dl - 255) * 1000000)))
       (VDict [("tai_seconds"%string, VInt t); ("tai_utc_delta_raw"%string, VInt dl); ("time_zone_offset"%string, VInt tz)])
       (VDict [("tai_seconds"%string, VInt t); ("tai_utc_delta_raw"%string, VInt dl); ("time_zone_offset"%string, VInt tz)])
       (stamp_object (VDateTime ((t + y2000 - (dl - 255)) * 1000000) off) (VTimedelta ((dl - 255) * 1000000)))).
    { unfold stamp_object. cbn [A_spec].
      eexists _, _, ((t + y2000 - (dl - 255)) * 1000000), off, _, dl, t, 0, tz, _.
      split; [reflexivity|]. split; [reflexivity|]. split; [left; reflexivity|]. split; [reflexivity|]. split; [exact Ho|].
      split; [reflexivity|]. split; [left; reflexivity|]. split; [exact Hdl|]. split; [lia|]. split; [lia|]. split; [lia|].
      split; [apply R; simpl; tauto|]. split; [apply R; simpl; tauto|]. split; [apply R; simpl; tauto|]. split; [apply R; simpl; tauto|]. split; [apply R; simpl; tauto|].
      split; [reflexivity|]. split; [reflexivity|]. split; [reflexivity|]. split; [reflexivity|]. split; reflexivity. }
    destruct (adapters_ok ATimestamp _ _ _ _ S) as [-> _]. cbn [bind]. apply stamp_build; lia.
Qed.
Print Assumptions C35_round_trip.
Theorem C35_all_fields : forall w, In (ATimestamp, w) all_uses -> CAdapt ATimestamp w = Timestamp.
Proof.
  intros w H.
  assert (C : forallb (fun p => match fst p with ATimestamp => con_eqb (snd p) elt_Timestamp | _ => true end) all_uses = true) by (vm_compute; reflexivity).
  apply (proj1 (forallb_forall _ all_uses)) with (x := (ATimestamp, w)) in C; [|exact H]. cbn [fst snd] in C. apply con_eqb_spec in C. now subst.
Qed.
Print Assumptions C35_all_fields.
Example C35_ex : parse_msg Timestamp (stamp_octets 677059200 72 292)
    = Ok (stamp_object (VDateTime ((677059200 + y2000 - 37) * 1000000) 7200) (VTimedelta 37000000))
  /\ build_msg Timestamp (stamp_object (VDateTime ((677059200 + y2000 - 37) * 1000000) 7200) (VTimedelta 37000000)) = Ok (stamp_octets 677059200 72 292).
Proof. split; vm_compute; reflexivity. Qed.

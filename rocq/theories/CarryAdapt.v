(** * CarryAdapt: every adapter encodes what Cap'n Proto gives back as it encodes the decoded value (basis of C55). *)
From Verif Require Import PyVal Bits Float64 FloatX Utf8 Adapters AdapterSpec Construct Size Spec Master Deps Uses Reread P_int AdapterProofs1 AdapterProofs2 AdapterProofs3 AdapterProofs4 P_scale P_log P_keys P_transition G_config G_generics G_time G_elt Sound SoundAdapt Vocab Access AccessProofs Names P_names Capnp G_capnp P_capnp P_schema Shape P_fits Recode Carry.
From Coq Require Import Lia QArith Lqa Permutation.
Local Open Scope list_scope.
Local Open Scope Z_scope.

Section CarryAdapt.
Variable sch : schema.
Variable u : bool.
Local Notation st := (Carry.st sch u).
Local Notation nexts := (Carry.nexts sch).
Local Notation at32 := (Carry.at32 u).

Definition ints (tg : target) (ks : list string) : bool := forallb (fun k => forallb intty (nexts tg k)) ks.
Definition floatty (t : string) (tg : target) : bool := match tg with TT t' => String.eqb t t' | TU _ => false end.
Lemma floatty_eq t tg : floatty t tg = true -> tg = TT t.
Proof. destruct tg as [t'|]; [|discriminate]. intros H. apply String.eqb_eq in H. now subst. Qed.
Definition dated (tg : target) : bool := ints tg ["year"; "month"; "day"; "hour"; "minute"; "second"; "microsecond"; "timeZoneOffset"]%string.
Definition timed (tg : target) : bool := forallb dated (nexts tg "date") && forallb intty (nexts tg "taiUtcDelta").
(** the targets with which each adapter's values survive *)
Definition rta (a : adapter) (tg : target) : bool :=
  match a with
  | AEnum _ | ARange _ _ | AMask _ | AAddrIn _ | AAddrOut _ | ALog _ _ _ => intty tg
  | ACount _ _ _ _ => floatty "Float64" tg
  | ATransition _ | ADelay | ATimeExp8 => floatty "Float32" tg
  | AFixedString => textty tg
  | AKeyIndices | ABitList _ _ => match elem tg with Some t => intty (TT t) | None => false end
  | ARetransmit _ => ints tg ["count"; "interval"]%string
  | ADate => ints tg ["year"; "month"; "day"]%string
  | ATimestamp => timed tg
  | ATime => timed tg && forallb (floatty "Float32") (nexts tg "uncertainty")
  | _ => false
  end.
Definition Carrya (k : option string) (a : adapter) (c1 : con) (tg : target) : Prop :=
  forall m ctx s w r v C x, wf m c1 = true -> units m s -> parse c1 ctx s = Ok (w, r) -> decode a w = Ok v -> st tg C v x -> at32 k v -> encode a v = encode a x.

Lemma cy_enum k t c tg : intty tg = true -> Carrya k (AEnum t) c tg.
Proof.
  intros I m ctx s w r v C x W U P D S _. cbn [decode] in D. unfold enum_decode in D. destruct (as_int w) as [z|]; [|discriminate].
  destruct (by_value t z) as [y|] eqn:B; [|discriminate]. injection D as <-. destruct (by_value_shape t z y B) as (n & ->). apply st_enum in S; [|exact I]. subst x. reflexivity.
Qed.
Lemma cy_valid k a c tg p : intty tg = true -> intc c = true -> (forall w, decode a w = validate p w) -> Carrya k a c tg.
Proof.
  intros I Ic Hd m ctx s w r v C x W U P D S _. rewrite Hd in D. destruct (intc_parse _ m ctx s w r Ic W U P) as (z & -> & _).
  unfold validate in D. cbn [as_int] in D. destruct (p z); [|discriminate]. injection D as <-. apply st_int in S; [|exact I]. now subst.
Qed.
Lemma cy_log k b mx i tg : intty tg = true -> Carrya k (ALog b mx i) (CInt 1 false) tg.
Proof.
  intros I m ctx s w r v C x W U P D S _. destruct (intc_parse (CInt 1 false) m ctx s w r eq_refl W U P) as (z & -> & _). cbn [decode as_intr as_int bind] in D. unfold log_decode in D.
  assert (V : (exists y, v = VInt y) \/ v = VInf).
  { repeat match type of D with (if ?b then _ else _) = _ => destruct b | match ?o with Some _ => _ | None => _ end = _ => destruct o end; try discriminate; injection D as <-; eauto. }
  destruct V as [(y & ->) | ->]; [apply st_int in S; [now subst|exact I]|]. destruct S as [_ _ _ _ (w & R & ->)]. change (case_val camelcase VInf) with VInf in R.
  inversion R as [| | | | | | |t F| | | | | | |]; subst. exfalso. destruct F as [<-|[<-|[]]]; discriminate.
Qed.
Lemma cy_count k b kk r un c tg : existsb (row_eqb b kk r un c) scale_table = true -> floatty "Float64" tg = true -> Carrya k (ACount b kk r un) c tg.
Proof.
  intros H Ht m ctx s w rest v C x W U P D S _. apply floatty_eq in Ht. subst tg. apply st_double in S as [S1 S2].
  apply existsb_exists in H as ([[[[[[b' k'] r'] n] d] un'] c'] & Hin & E).
  unfold row_eqb in E. andb E. apply Z.eqb_eq in E. apply Z.eqb_eq in E3. apply res_eqb_spec in E2. apply Bool.eqb_prop in E1. apply con_eqb_spec in E0. subst b' k' r' un' c'.
  pose proof whole_rows as R. rewrite forallb_forall in R. specialize (R _ Hin). cbv beta iota in R.
  destruct (row_ok _ _ _ _ _ _ _ Hin) as (Hr & Hd & Hb & Hf). clear Hin.
  assert (I : intc c = true) by (destruct Hf as (? & _ & [[? ->]| ->]); reflexivity).
  destruct (intc_parse _ m ctx s w rest I W U P) as (z & -> & Cc).
  assert (Hz : Z.abs z < 256 ^ b).
  { specialize (Cc (VInt z) true [] [] eq_refl). destruct Hf as (q & <- & [[sg ->]| ->]); destruct Cc as (z' & E & F & _); injection E as <-.
    - rewrite pow256_2. unfold Spec.fits in F. assert (2 ^ (8 * Z.of_nat q) = 2 * 2 ^ (8 * Z.of_nat q - 1)) by (rewrite <- Z.pow_succ_r by lia; f_equal; lia).
      assert (0 < 2 ^ (8 * Z.of_nat q - 1)) by (apply Z.pow_pos_nonneg; lia). destruct sg; lia.
    - rewrite pow256_2. unfold Spec.fits in F. lia. }
  cbn [decode as_intr as_int bind] in D. unfold count_decode in D.
  destruct (un && (z =? 256 ^ b - 1))%bool; [injection D as <-; now rewrite (S2 _ eq_refl)|].
  destruct r as [kz|q]; injection D as <-; [|now rewrite (S2 _ eq_refl)]. rewrite (S1 _ eq_refl). apply andb_prop in R as [R1 R2]. apply Z.ltb_lt in R1. apply Z.leb_le in R2.
  assert (B : Z.abs (z * kz) <= 2 ^ 53) by (rewrite Z.abs_mul, (Z.abs_eq kz) by lia; nia).
  assert (Bk : Z.abs kz <= 2 ^ 53) by (assert (1 <= 256 ^ b) by lia; nia).
  rewrite rnd64_int by exact B. cbn [encode]. unfold count_encode, true_div. cbn [num_of as_int]. unfold fdiv. rewrite (fz_small kz Bk). reflexivity.
Qed.
Lemma cy_transition k un tg : (String.eqb k "transition_time" || String.eqb k "remaining_time" && (un || negb u))%bool = true -> floatty "Float32" tg = true ->
  Carrya (Some k) (ATransition un) generics_TransitionTime tg.
Proof.
  intros Hk Ht m ctx s w r v C x W U P D S (K32 & K). apply floatty_eq in Ht. subst tg. apply st_single in S as [S1 S2].
  destruct (two_bits "resolution" 2 "steps" 6 m ctx s w r eq_refl W P) as (a & b & Ha & Hb & -> & _). change (2 ^ Z.of_nat 2) with 4 in Ha. change (2 ^ Z.of_nat 6) with 64 in Hb.
  assert (V : v = step_value a b).
  { cbn [decode transition_decode] in D. unfold dgetr in D. cbn [dget String.eqb Ascii.eqb Bool.eqb bind as_int] in D. unfold step_resolution in D. unfold step_value.
    assert (a = 0 \/ a = 1 \/ a = 2 \/ a = 3) as Hc by lia. destruct Hc as [-> | [-> | [-> | ->]]]; cbn [Z.eqb Pos.eqb times] in *; injection D as <-; [unfold fmul; rewrite fz_small by lia|..]; reflexivity. }
  clear D. subst v. destruct K as (_ & _ & K63 & _).
  assert (T : k = "transition_time"%string \/ k = "remaining_time"%string /\ (un = true \/ u = false)).
  { apply orb_prop in Hk as [Hk|Hk]; [left; now apply String.eqb_eq|]. apply andb_prop in Hk as [Hk Hu]. right. split; [now apply String.eqb_eq|].
    apply orb_prop in Hu as [Hu|Hu]; [left; exact Hu|right; now apply negb_true_iff]. }
  set (o := 64 * a + b). assert (Eo : o / 64 = a /\ o mod 64 = b) by (unfold o; split; Z.div_mod_to_equations; lia). destruct Eo as [E1 E2]. assert (Ho : 0 <= o < Z.of_nat 256) by (unfold o; lia). assert (Oo : o = 64 * a + b) by reflexivity. clearbody o.
  assert (X : x = single_of (step_value a b)).
  { unfold step_value in *. destruct (a =? 0); cbn [single_of]; [now apply S2 | now apply S1]. }
  subst x. pose proof single_steps as Q. rewrite forallb_forall in Q. specialize (Q un ltac:(destruct un; [right; left | left]; reflexivity)).
  pose proof (forallb_upto _ _ Q o Ho) as F. clear Q. cbv beta in F. rewrite E1, E2 in F. apply orb_prop in F as [F|F]; [apply orb_prop in F as [F|F]|].
  - exfalso. apply existsb_exists in F as (z & Hz & Ez). apply Z.eqb_eq in Ez. destruct K32 as [K32 _]. apply (K32 ltac:(destruct T as [T|[T _]]; auto) z Hz).
    assert (0 < z < 64) by (assert (G : forallb (fun z => (0 <? z) && (z <? 64))%bool lost_steps = true) by reflexivity; rewrite forallb_forall in G; specialize (G _ Hz); cbv beta in G; lia).
    assert (a = 0 /\ b = z) as [-> ->] by lia. reflexivity.
  - exfalso. apply andb_prop in F as [F1 F2]. apply Z.eqb_eq in F1. apply negb_true_iff in F2. subst un.
    apply (K63 ltac:(destruct T as [T|[T [T2|T2]]]; auto; discriminate) a); [lia|now rewrite F1].
  - now apply enc_eqb_ok.
Qed.
Lemma cy_delay tg : floatty "Float32" tg = true -> Carrya (Some "delay"%string) ADelay (CInt 1 false) tg.
Proof.
  intros Ht m ctx s w r v C x W U P D S (K32 & _). apply floatty_eq in Ht. subst tg. apply st_single in S as [_ S2].
  destruct (u8_range m ctx s _ r W U P) as (z & -> & R). cbn [decode delay_decode as_intr as_int bind] in D. unfold delay_decode in D. cbn [as_intr as_int bind] in D. injection D as <-.
  assert (E : rnd64 (inject_Z z / inject_Z 200) = rnd64 (z # 200)) by (apply rnd64_comp; unfold Qdiv, Qinv, Qmult, Qeq, inject_Z; simpl; lia).
  rewrite E in *. rewrite (S2 _ eq_refl). pose proof (forallb_upto _ _ single_delays z ltac:(lia)) as F. cbv beta in F. apply orb_prop in F as [F|F]; [|now apply enc_eqb_ok].
  exfalso. apply existsb_exists in F as (z' & Hz & Ez). apply Z.eqb_eq in Ez. subst z'. destruct K32 as [_ K32]. now apply (K32 eq_refl z Hz).
Qed.
Lemma cy_exp8 k tg : floatty "Float32" tg = true -> Carrya k ATimeExp8 (CInt 1 false) tg.
Proof.
  intros Ht m ctx s w r v C x W U P D S _. apply floatty_eq in Ht. subst tg. apply st_single in S as [S1 S2].
  destruct (u8_range m ctx s _ r W U P) as (z & -> & R). cbn [decode] in D. unfold exp8_decode in D. cbn [as_intr as_int bind] in D.
  destruct (Z.eqb_spec z 0) as [Hz |Hn]; injection D as <-.
  - rewrite (S1 _ eq_refl). vm_compute. reflexivity.
  - rewrite (S2 _ eq_refl). rewrite exp8_value_float. cbn [encode]. rewrite (exp8_encode_spec (VFloat (exp8_float z)) _ z eq_refl ltac:(lia) (exp8_near z ltac:(lia))). now rewrite (exp8_encode_spec (VFloat (rnd32 (exp8_float z))) _ z eq_refl ltac:(lia) (single_near z ltac:(lia))).
Qed.
Lemma cy_string k n tg : textty tg = true -> Carrya k AFixedString (CPaddedString (EConst n)) tg.
Proof.
  intros I m ctx s w r v C x W U P D S _. cbn [decode] in D. injection D as <-. cbn [parse eval bind] in P. destruct (Z.ltb_spec n 0); [discriminate|].
  apply bind_ok in P as ([a r0] & P & E). destruct (utf8_decode (strip_nul a)) as [t|] eqn:T; [|discriminate]. injection E as <- _. apply st_str in S; [now subst|exact I].
Qed.
(** a dict of whole numbers *)
Definition whole (x : val) (z : Z) : Prop := x = VInt z \/ exists q, x = VFloat q /\ (q == inject_Z z)%Q.
Lemma ret_whole_int tg x z y : whole x z -> intty tg = true -> returns sch tg x y -> y = VInt z.
Proof.
  intros [-> | (q & -> & Hq)] I R; inversion R; subst; try reflexivity; try discriminate.
  match goal with H : (_ == _)%Q |- _ => rewrite H in Hq end. unfold inject_Z, Qeq in Hq. cbn in Hq. f_equal. lia.
Qed.
Lemma ret_ints tg e w : returns sch tg (VDict e) w -> NoDup (keys e) -> ints tg (keys e) = true -> (forall k, In k (keys e) -> hidden k = false) ->
  (forall j k, In j (keys e) -> In k (keys e) -> snakecase j = snakecase k -> j = k) ->
  exists d, case_val snakecase w = VDict d /\ forall k x z, In (k, x) e -> whole x z -> dget (snakecase k) d = Some (VInt z).
Proof.
  intros R N I V J. apply ret_dict in R as (e' & -> & Ne & Kk & Rk); [|exact N].
  rewrite case_val_dict. assert (Nn : dget "_name" e' = None) by (apply dget_none; intros H; apply Kk, V in H; discriminate). rewrite Nn. cbn [wrapped].
  assert (Inj : forall j j', In j (keys e') -> In j' (keys e') -> hidden j = false -> hidden j' = false -> snakecase j = snakecase j' -> j = j') by (intros j j' Hj Hj' _ _; apply J; now apply Kk).
  rewrite case_dict_seen by (auto; intros k _ _ []). cbn [app]. eexists. split; [reflexivity|]. intros k x z Hz Wh.
  assert (Hk : In k (keys e)) by (apply in_map_iff; now exists (k, x)). destruct (keys_In k e') as [y Hy]; [now apply Kk|].
  destruct (Rk k x y Hz Hy) as (tg1 & Ht & R1).
  assert (It : intty tg1 = true). { unfold ints in I. rewrite forallb_forall in I. specialize (I _ Hk). rewrite forallb_forall in I. now apply I. }
  rewrite (ret_whole_int _ _ _ _ Wh It R1) in Hy. change (VInt z) with (case_val snakecase (VInt z)). apply seen_dget; [now apply seen_nodup|now apply V|exact Hy].
Qed.
Lemma snake_apart l : Master.distinct (map snakecase l) = true -> forall j k, In j l -> In k l -> snakecase j = snakecase k -> j = k.
Proof.
  intros H. apply distinct_NoDup in H. induction l as [|a l IH]; intros j k Hj Hk E; [destruct Hj|]. cbn [map] in H. inversion_clear H as [|? ? N1 N2].
  destruct Hj as [<-|Hj], Hk as [<-|Hk]; [reflexivity| | |now apply IH]; exfalso; apply N1; [rewrite E|rewrite <- E]; now apply in_map.
Qed.
Lemma cy_date k tg : ints tg ["year"; "month"; "day"]%string = true -> Carrya k ADate (CBytesInt 3 true) tg.
Proof.
  intros I m ctx s w r v C x W U P D S _. destruct (intc_parse (CBytesInt 3 true) m ctx s w r eq_refl W U P) as (z & -> & _).
  cbn [decode] in D. unfold date_decode in D. cbn [as_intr as_int bind] in D. destruct ((min_day <=? z) && (z <=? max_day))%bool eqn:B; [|discriminate]. injection D as <-.
  apply andb_prop in B as [B1 B2]. apply Z.leb_le in B1, B2. destruct S as [_ _ _ _ (w & R & ->)]. change (case_val camelcase (VDate z)) with (case_date z) in R. unfold case_date in R.
  destruct (civil_of z) as [[y m0] d] eqn:E. apply civil_of_days in E; [|lia].
  apply ret_ints in R as (d' & -> & G).
  - assert (G1 : dget "year" d' = Some (VInt y)) by (apply (G "year"%string (VInt y)); [cbn; tauto|now left]).
    assert (G2 : dget "month" d' = Some (VInt m0)) by (apply (G "month"%string (VInt m0)); [cbn; tauto|now left]).
    assert (G3 : dget "day" d' = Some (VInt d)) by (apply (G "day"%string (VInt d)); [cbn; tauto|now left]).
    cbn [encode date_encode]. unfold geti, dgetr. rewrite G1, G2, G3. cbn [bind as_intr as_int]. now rewrite E.
  - now apply distinct_NoDup.
  - exact I.
  - intros j [<-|[<-|[<-|[]]]]; reflexivity.
  - apply snake_apart. vm_compute. reflexivity.
Qed.
(** dates and times *)
Lemma st_datetime tg C us off x : dated tg = true -> in_dt (us + off * 1000000) = true -> tz_ok off = true -> off mod 60 = 0 -> st tg C (VDateTime us off) x -> datetime_of x = Ok (us, off).
Proof.
  intros I Hd Ht Hm [_ _ _ _ (w & R & ->)]. change (case_val camelcase (VDateTime us off)) with (case_datetime us off) in R. unfold case_datetime in R.
  set (t := us + off * 1000000) in *. set (r := t mod 86400000000) in *.
  assert (Hz : min_day <= t / 86400000000 <= max_day).
  { unfold in_dt in Hd. apply andb_true_iff in Hd as [H1 H2]. apply Z.leb_le in H1. apply Z.ltb_lt in H2. unfold min_us, max_us, min_day, max_day in *. Z.div_mod_to_equations; lia. }
  assert (Et : t = 86400000000 * (t / 86400000000) + r) by (subst r; apply Z.div_mod; lia).
  assert (Hr : 0 <= r < 86400000000) by (subst r; apply Z.mod_pos_bound; lia).
  destruct (civil_of (t / 86400000000)) as [[y m] d] eqn:E. apply civil_of_days in E; [|exact Hz].
  assert (Eo : rnd64 (off # 60) = inject_Z (off / 60)).
  { rewrite <- rnd64_int.
    - apply rnd64_comp. unfold Qeq, inject_Z. cbn [Qnum Qden]. Z.div_mod_to_equations; lia.
    - unfold tz_ok in Ht. apply andb_true_iff in Ht as [H1 H2]. apply Z.ltb_lt in H1, H2. assert (-1440 <= off / 60 <= 1440) by (Z.div_mod_to_equations; lia). lia. }
  rewrite Eo in R. set (day := t / 86400000000) in *. clearbody day.
  apply ret_ints in R as (d' & -> & G).
  - assert (Gi : forall k z, In (k, VInt z) [("year"%string, VInt y); ("month"%string, VInt m); ("day"%string, VInt d);
         ("hour"%string, VInt (r / 3600000000)); ("minute"%string, VInt (r / 60000000 mod 60)); ("second"%string, VInt (r / 1000000 mod 60));
         ("microsecond"%string, VInt (r mod 1000000)); ("timeZoneOffset"%string, VFloat (inject_Z (off / 60)))] -> dget (snakecase k) d' = Some (VInt z)) by (intros k z Hk; apply (G k (VInt z)); [exact Hk|now left]).
    assert (G8 : dget "time_zone_offset" d' = Some (VInt (off / 60))).
    { apply (G "timeZoneOffset"%string (VFloat (inject_Z (off / 60)))); [cbn; tauto|]. right. eexists. split; reflexivity. }
    assert (G1 : dget "year" d' = Some (VInt y)) by (apply (Gi "year"%string); cbn; tauto).
    assert (G2 : dget "month" d' = Some (VInt m)) by (apply (Gi "month"%string); cbn; tauto).
    assert (G3 : dget "day" d' = Some (VInt d)) by (apply (Gi "day"%string); cbn; tauto).
    assert (G4 : dget "hour" d' = Some (VInt (r / 3600000000))) by (apply (Gi "hour"%string); cbn; tauto).
    assert (G5 : dget "minute" d' = Some (VInt (r / 60000000 mod 60))) by (apply (Gi "minute"%string); cbn; tauto).
    assert (G6 : dget "second" d' = Some (VInt (r / 1000000 mod 60))) by (apply (Gi "second"%string); cbn; tauto).
    assert (G7 : dget "microsecond" d' = Some (VInt (r mod 1000000))) by (apply (Gi "microsecond"%string); cbn; tauto).
    clear G Gi. unfold datetime_of, geti, dgetr. rewrite G1, G2, G3, G4, G5, G6, G7, G8. cbn [bind int_key as_intr as_int].
    rewrite E. replace (off / 60 * 60) with off by (Z.div_mod_to_equations; lia). rewrite Ht.
    assert (H1 : 0 <= r / 3600000000 < 24) by (Z.div_mod_to_equations; lia).
    assert (H2 : 0 <= r / 60000000 mod 60 < 60) by (apply Z.mod_pos_bound; lia).
    assert (H3 : 0 <= r / 1000000 mod 60 < 60) by (apply Z.mod_pos_bound; lia).
    assert (H4 : 0 <= r mod 1000000 < 1000000) by (apply Z.mod_pos_bound; lia).
    destruct H1, H2, H3, H4.
    repeat match goal with |- context [?a <=? ?b] => destruct (Z.leb_spec a b); [|lia] | |- context [?a <? ?b] => destruct (Z.ltb_spec a b); [|lia] end.
    cbn [andb]. do 2 f_equal. subst t. Z.div_mod_to_equations; lia.
  - now apply distinct_NoDup.
  - exact I.
  - intros j [<-|[<-|[<-|[<-|[<-|[<-|[<-|[<-|[]]]]]]]]]; reflexivity.
  - apply snake_apart. vm_compute. reflexivity.
Qed.
Lemma st_delta tg C n x : intty tg = true -> Z.abs n <= 2 ^ 53 -> st tg C (VTimedelta (n * 1000000)) x -> delta_us x = Ok (n * 1000000).
Proof.
  intros I B [_ _ _ _ (w & R & ->)]. change (case_val camelcase (VTimedelta (n * 1000000))) with (VFloat (rnd64 (n * 1000000 # 1000000))) in R.
  assert (E : rnd64 (n * 1000000 # 1000000) = inject_Z n) by (rewrite <- rnd64_int by exact B; apply rnd64_comp; unfold Qeq, inject_Z; cbn [Qnum Qden]; lia).
  rewrite E in R. apply (ret_whole_int _ _ n) in R; [subst w; reflexivity| |exact I]. right. eexists. split; reflexivity.
Qed.
Lemma single_uncertainty : forallb (fun un => match uncertainty_us (VFloat (rnd32 (rnd64 (un * 10000 # 1000000)))) with Ok z => z =? un * 10000 | _ => false end) (upto 256) = true.
Proof. vm_compute. reflexivity. Qed.
Lemma timed_dict tg C d x us off n : timed tg = true -> dget "_name" d = None -> dget "date" d = Some (VDateTime us off) -> dget "tai_utc_delta" d = Some (VTimedelta (n * 1000000)) ->
  in_dt (us + off * 1000000) = true -> tz_ok off = true -> off mod 60 = 0 -> Z.abs n <= 2 ^ 53 -> st tg C (VDict d) x ->
  exists d' a b, x = VDict d' /\ related sch u tg C d d' /\ dget "date" d' = Some a /\ datetime_of a = Ok (us, off) /\ dget "tai_utc_delta" d' = Some b /\ delta_us b = Ok (n * 1000000).
Proof.
  intros T Nm G1 G2 H1 H2 H3 H4 S. apply andb_prop in T as [T1 T2]. rewrite forallb_forall in T1, T2. apply st_dict in S as (d' & -> & R); [|exact Nm].
  pose proof (R "date"%string eq_refl) as R1. rewrite G1 in R1. destruct R1 as (tg1 & a & I1 & Ga & S1 & _).
  pose proof (R "tai_utc_delta"%string eq_refl) as R2. rewrite G2 in R2. destruct R2 as (tg2 & b & I2 & Gb & S2 & _).
  exists d', a, b. split; [reflexivity|]. split; [exact R|]. split; [exact Ga|]. split; [eapply st_datetime; eauto|]. split; [exact Gb|]. eapply st_delta; eauto.
Qed.
Lemma zone_facts tz : zone_seconds tz mod 60 = 0.
Proof. unfold zone_seconds. Z.div_mod_to_equations; lia. Qed.
Lemma cy_stamp k tg : timed tg = true -> Carrya k ATimestamp elt_Timestamp tg.
Proof.
  intros T m ctx s w r v C x W U P D S _. destruct (stamp_inv m ctx s w r W U P) as (t & tz & raw & Ht & Htz & Hraw & ->).
  cbn [decode timestamp_decode] in D. unfold geti, dgetr in D. cbn [dget String.eqb Ascii.eqb Bool.eqb bind as_intr as_int] in D.
  destruct (Z.odd (raw / 32768)); [discriminate|]. destruct (tz_ok (zone_seconds tz)) eqn:Z1; [|discriminate]. cbn [negb] in D.
  match type of D with (if ?b then _ else _) = _ => destruct b eqn:Z2; [|discriminate] end. injection D as <-.
  apply andb_prop in Z2 as [Z2 Z3]. apply andb_prop in Z2 as [_ _]. unfold delta_of_mesh in *. set (n := raw mod 32768 - 255) in *.
  assert (Hn : Z.abs n <= 2 ^ 53) by (assert (0 <= raw mod 32768 < 32768) by (apply Z.mod_pos_bound; lia); unfold n; change (2 ^ 53) with 9007199254740992; lia). clearbody n.
  eapply (timed_dict _ _ _ _ _ _ n) in S as (d' & a & b & -> & R & Ga & Da & Gb & Db); [|exact T|reflexivity|reflexivity|reflexivity| |exact Z1|apply zone_facts|exact Hn].
  - cbn [encode timestamp_encode]. unfold dgetr. rewrite Ga, Gb. cbn [dget String.eqb Ascii.eqb Bool.eqb bind]. rewrite Da, Db. reflexivity.
  - rewrite <- Z3. f_equal. lia.
Qed.
Lemma st_int_items t l x : intty (TT t) = true -> Forall2 (st (TT t) []) (map VInt l) x -> x = map VInt l.
Proof. intros I. revert x. induction l as [|z l IH]; intros x F; inversion F as [|a b cl x' H1 H2]; subst; [reflexivity|]. cbn [map]. f_equal; [now apply st_int in H1|now apply IH]. Qed.
Lemma cy_keys k tg t : elem tg = Some t -> intty (TT t) = true -> Carrya k AKeyIndices (CGreedyRange (CSelect (ACons pair_con (ACons last_con ANil)))) tg.
Proof.
  intros Et I m ctx s w r v C x W U P D S _. apply elem_eq in Et. subst tg.
  set (c := CSelect (ACons pair_con (ACons last_con ANil))) in *.
  change (parse (CGreedyRange c) ctx s) with (let* q := greedy (parse c ctx) (Datatypes.S (length s)) s in let (l, r) := (q : list val * list Z) in Ok (VList l, r)) in P.
  change (wf m c && prod c && Nat.ltb 0 (minsz c) = true) in W. andb W.
  apply bind_ok in P as ([l r0] & P & E). injection E as <- _.
  pose proof (greedy_elems m _ _ _ _ _ (fun s0 v0 r0 U0 P0 => parse_units c m ctx s0 v0 r0 W U0 P0) U P) as F.
  assert (G : exists zs, flatten_items l = Ok (map VInt zs)).
  { clear -F W. induction F as [|x l (s & r & U & P) F IH]; [exists []; reflexivity|]. destruct IH as (zs & E).
    destruct (SoundAdapt.item_parse m ctx s x r W U P) as [(a & b & Ha & Hb & ->)|(a & Ha & ->)]; cbn [flatten_items]; rewrite E; cbn.
    - now exists (a :: b :: zs).
    - now exists (a :: zs). }
  destruct G as (zs & Ez). cbn [decode] in D. unfold key_indices_decode in D. rewrite Ez in D. cbn [bind] in D. rewrite isort_map in D. injection D as <-.
  apply st_items in S as (l' & -> & F'). now rewrite (st_int_items _ _ _ I F').
Qed.
Lemma cy_bits k tg t : elem tg = Some t -> intty (TT t) = true -> Carrya k (ABitList 2 false) (CBitwise (CArray (EConst 16) (CBits 1 false))) tg.
Proof.
  intros Et I m ctx s w r v C x W U P D S _. apply elem_eq in Et. subst tg. cbn [parse eval bind] in P.
  apply bind_ok in P as ([w0 r0] & P & E). destruct (bits2bytes r0) as [q [|]]; [|discriminate]. injection E as <- _.
  change (16 <? 0) with false in P. cbv iota in P. apply bind_ok in P as ([l r1] & P & E). injection E as <- _. cbn [decode bitlist_decode] in D. injection D as <-.
  assert (G : forall l i, exists zs, set_bits i l = map VInt zs).
  { clear. induction l as [|b l IH]; intros i; [now exists []|]. cbn [set_bits]. destruct (IH (i + 1)) as (zs & ->). destruct (truthy b); [now exists (i :: zs) | now exists zs]. }
  destruct (G l 0) as (zs & Ez). rewrite Ez in *. destruct S as [_ _ _ _ (w & R & ->)].
  change (case_val camelcase (VSet (map VInt zs))) with (VList (map (case_val camelcase) (map VInt zs))) in R. rewrite map_map in R. change (map (fun x => case_val camelcase (VInt x)) zs) with (map VInt zs) in R.
  assert (w = VList (map VInt zs)) as ->.
  { remember (TT ("List(" ++ t ++ ")")) as tg eqn:Eg. clear -R Eg I. inversion R as [| | | | | | | | | | | |t1 l1 l' H| |]; subst. injection H0 as Eg. apply append_end in Eg as ->. f_equal. clear R.
    revert l' H. induction zs as [|z zs IH]; intros l' H; inversion H as [|a b cl x' H1 H2]; subst; [reflexivity|]. cbn [map]. f_equal; [inversion H1; subst; try reflexivity; discriminate|now apply IH]. }
  change (case_val snakecase (VList (map VInt zs))) with (VList (map (case_val snakecase) (map VInt zs))). rewrite map_map. reflexivity.
Qed.
Lemma cy_retransmit k iv tg : ints tg ["count"; "interval"]%string = true -> Carrya k (ARetransmit iv) config_Retransmit tg.
Proof.
  intros I m ctx s w r v C x W U P D S _.
  destruct (two_bits "interval_steps" 5 "count" 3 m ctx s w r eq_refl W P) as (a & b & Ha & Hb & -> & _). cbn in D. injection D as <-.
  apply st_dict in S as (d' & -> & R); [|reflexivity].
  assert (G : forall n z, In n ["count"; "interval"]%string -> camelcase n = n -> hidden n = false -> dget n [("count", VInt b); ("interval", VInt ((a + 1) * iv))]%string = Some (VInt z) -> dget n d' = Some (VInt z)).
  { intros n z Hn Cn Hh E. specialize (R n Hh). rewrite E in R. destruct R as (tg1 & y & Ht & -> & S & _). rewrite Cn in Ht. unfold ints in I. rewrite forallb_forall in I. specialize (I _ Hn). rewrite forallb_forall in I.
    apply st_int in S; [now subst | now apply I]. }
  cbn [encode retransmit_encode]. unfold dgetr. rewrite (G "count"%string b), (G "interval"%string ((a + 1) * iv)) by (try (cbn; tauto); vm_compute; reflexivity). reflexivity.
Qed.
Lemma st_no_none tg C x : st tg C VNone x -> False.
Proof. intros [_ _ _ _ (w & R & _)]. change (case_val camelcase VNone) with VNone in R. inversion R. Qed.
Lemma cy_time k tg : timed tg = true -> forallb (floatty "Float32") (nexts tg "uncertainty") = true -> Carrya k ATime time_Time tg.
Proof.
  intros T Fu m ctx s w r v C x W U P D S _. destruct (time_inv m ctx s w r v W U P D) as [N | (t & sub & un & dl & au & tz & d & Ht & Hsub & Hun & Hdl & Htz & -> & Hn & G1 & G2 & G3 & G4 & G5 & G6)].
  - exfalso. destruct v as [| | | | | | | | | |d| | | | |]; try discriminate N.
    assert (Nm : dget "_name" d = None).
    { cbn [decode] in D. unfold time_decode in D. destruct w; try discriminate D. repeat (match type of D with (let* _ := ?b in _) = _ => destruct b; cbn [bind] in D; try discriminate D | (if ?b then _ else _) = _ => destruct b; try discriminate D | (let (_, _) := ?b in _) = _ => destruct b end); try (injection D as <-; reflexivity). }
    apply st_dict in S as (d' & -> & R); [|exact Nm]. specialize (R "date"%string eq_refl). cbv beta iota in N. rewrite N in R. destruct R as (tg1 & a & _ & _ & S1 & _). exact (st_no_none _ _ _ S1).
  - cbn [decode time_decode] in D. unfold geti, dgetr in D. rewrite G1, G2, G3, G4, G5, G6 in D. cbn [bind as_intr as_int] in D. destruct (Z.eqb_spec t 0); [contradiction|]. unfold delta_of_mesh in D. set (n0 := dl - 255) in *.
    destruct (tz_ok (zone_seconds tz)) eqn:Z1; [|discriminate]. cbn [negb] in D. match type of D with (if ?b then _ else _) = _ => destruct b eqn:Z2; [|discriminate] end. apply andb_prop in Z2 as [_ Z2]. injection D as <-.
    assert (Hn0 : Z.abs n0 <= 2 ^ 53) by (unfold n0; change (2 ^ 53) with 9007199254740992; lia). clearbody n0.
    eapply (timed_dict _ _ _ _ _ _ n0) in S as (d' & a & b & -> & R & Ga & Da & Gb & Db); [|exact T|reflexivity|reflexivity|reflexivity|exact Z2|exact Z1|apply zone_facts|exact Hn0].
    pose proof (R "time_authority"%string eq_refl) as R1. cbn [dget String.eqb Ascii.eqb Bool.eqb] in R1. destruct R1 as (tg1 & y & _ & Gy & S1 & _). apply st_bool in S1. subst y.
    pose proof (R "uncertainty"%string eq_refl) as R2. cbn [dget String.eqb Ascii.eqb Bool.eqb] in R2. destruct R2 as (tg2 & y & I2 & Gu & S2 & _).
    rewrite forallb_forall in Fu. specialize (Fu _ I2). apply floatty_eq in Fu. subst tg2.
    assert (Y : y = VFloat (rnd32 (rnd64 (un * 10000 # 1000000)))).
    { destruct S2 as [_ _ _ _ (w & R2 & ->)]. change (case_val camelcase (VTimedelta (un * 10000))) with (VFloat (rnd64 (un * 10000 # 1000000))) in R2.
      inversion R2 as [| |t' z' q I| | | | | | | | | | | |]; subst; [|reflexivity]. destruct I as ((lo & hi) & I). repeat (destruct I as [I|I]; [discriminate|]). destruct I. }
    pose proof (forallb_upto _ _ single_uncertainty un ltac:(lia)) as Q. cbv beta in Q. rewrite <- Y in Q.
    cbn [encode time_encode]. unfold dgetr. rewrite Ga, Gb, Gy, Gu. cbn [dget String.eqb Ascii.eqb Bool.eqb bind]. rewrite Da, Db. cbn [datetime_of bind uncertainty_us delta_us].
    subst y. destruct (uncertainty_us (VFloat (rnd32 (rnd64 (un * 10000 # 1000000))))) as [z| |]; try discriminate Q. apply Z.eqb_eq in Q. subst z. reflexivity.
Qed.
(** every adapter the check accepts *)
Lemma adapt_carry k dl a c tg : rta a tg = true -> adok u k dl a c = true -> Carrya k a c tg.
Proof.
  intros R A. destruct a; cbn [rta adok] in *; try discriminate.
  - now apply cy_enum.
  - eapply cy_valid; [exact R|exact A|reflexivity].
  - andb A. apply con_eqb_spec in A0. subst c. eapply cy_valid; [exact R|reflexivity|reflexivity].
  - apply con_eqb_spec in A. subst c. eapply cy_valid; [exact R|reflexivity|reflexivity].
  - apply con_eqb_spec in A. subst c. eapply cy_valid; [exact R|reflexivity|reflexivity].
  - destruct max as [mx|]; [|discriminate]. andb A. apply con_eqb_spec in A0. subst c. now apply cy_log.
  - now apply cy_count.
  - andb A. apply con_eqb_spec in A. subst c. destruct k as [k|]; [|discriminate]. now apply cy_transition.
  - andb A. apply con_eqb_spec in A. subst c. destruct k as [k|]; [|discriminate]. apply String.eqb_eq in A0. subst k. now apply cy_delay.
  - andb A. apply con_eqb_spec in A0. subst c. now apply cy_retransmit.
  - andb A. apply con_eqb_spec in A0. subst c. destruct (elem tg) as [t|] eqn:E; [|discriminate]. now apply (cy_keys _ _ t).
  - andb A. apply con_eqb_spec in A0. subst c. apply Nat.eqb_eq in A. apply negb_true_iff in A1. subst. destruct (elem tg) as [t|] eqn:E; [|discriminate]. now apply (cy_bits _ _ t).
  - apply con_eqb_spec in A. subst c. now apply cy_date.
  - apply con_eqb_spec in A. subst c. now apply cy_exp8.
  - destruct c as [| | | | | | | |e| | | | | | | | | | | | | | | | | | | |]; try discriminate. destruct e; try discriminate. now apply cy_string.
  - apply con_eqb_spec in A. subst c. apply andb_prop in R as [R1 R2]. now apply cy_time.
  - apply con_eqb_spec in A. subst c. now apply cy_stamp.
Qed.
End CarryAdapt.

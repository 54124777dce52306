(** * SoundAdapt: every adapter returns a value it accepts back (hypothesis of Sound.v). *)
From Coq Require Import Qabs Permutation Sorted Lqa.
From Verif Require Import PyVal Bits Float64 FloatX Utf8 Adapters AdapterSpec Construct Size Spec Master
  AdapterProofs1 AdapterProofs2 AdapterProofs3 AdapterProofs4 G_config G_time G_elt G_generics G_rrule Conform Uses P_keys P_transition P_scale P_log P_field P_time Reread Sound.

Definition intc (c : con) : bool := match c with CInt _ _ | CBytesInt _ _ | CBits _ _ => true | _ => false end.
Definition row_eqb (b k : Z) (r : resolution) (un : bool) (c : con) (x : Z * Z * resolution * Z * positive * bool * con) : bool :=
  match x with (b', k', r', _, _, un', c') => (b =? b') && (k =? k') && res_eqb r r' && Bool.eqb un un' && con_eqb c c' end.

Definition adok (u : bool) (k : option string) (dl : bool) (a : adapter) (c1 : con) : bool :=
  match a with
  | AEnum _ => intc c1 || match c1 with CFlag => true | _ => false end
  | ARange _ _ => intc c1
  | AAddrIn _ | AAddrOut _ => con_eqb c1 (CInt 2 false)
  | AMask m => (m =? 61440) && con_eqb c1 (CInt 2 false)
  | ALog b (Some mx) _ => (b =? 1) && (1 <=? mx) && (mx <? 255) && con_eqb c1 (CInt 1 false)
  | ALog _ None _ => false
  | ACount b kk r un => existsb (row_eqb b kk r un c1) scale_table
  | ATransition un => con_eqb c1 generics_TransitionTime &&
      match k with Some k => (String.eqb k "transition_time" || String.eqb k "remaining_time" && (un || negb u))%bool | None => false end
  | ADelay => con_eqb c1 (CInt 1 false) && match k with Some k => String.eqb k "delay" | None => false end
  | ATimeExp8 => con_eqb c1 (CInt 1 false)
  | ARetransmit iv => (0 <? iv) && con_eqb c1 config_Retransmit
  | ABitList n rv => Nat.eqb n 2 && negb rv && con_eqb c1 (CBitwise (CArray (EConst 16) (CBits 1 false)))
  | ASet => negb dl && match c1 with CGreedyRange (CInt 1 false) | CGreedyRange (CAdapt (AEnum _) (CInt 1 false)) => true | _ => false end
  | AMac => match c1 with CBytes (S _) => true | _ => false end
  | AIp => match k with Some _ => true | None => false end
  | ADate => con_eqb c1 (CBytesInt 3 true)
  | AFixedString => match c1 with CPaddedString (EConst _) => true | _ => false end
  | ATimestamp => con_eqb c1 elt_Timestamp
  | AKeyIndices => negb dl && con_eqb c1 (CGreedyRange (CSelect (ACons pair_con (ACons last_con ANil))))
  | ATime => con_eqb c1 time_Time
  end.

(** ** integer fields *)
Lemma intc_parse c m ctx s w r : intc c = true -> wf m c = true -> units m s -> parse c ctx s = Ok (w, r) ->
  exists z, w = VInt z /\ forall x dl eb ep, as_int x = Some z -> conf A_spec c dl eb ep x (VInt z).
Proof.
  intros I W U P. destruct c; try discriminate I; cbn [parse wf] in *; apply bind_ok in P as ([a r0] & P & E); injection E as <- _; eexists; (split; [reflexivity|]); intros x dl eb ep Hx.
  - andb W. destruct m; [discriminate|]. apply Nat.ltb_lt in W0. destruct (units_take _ _ _ _ _ P U) as [Ua _]. apply take_ok in P as [_ P].
    eexists. split; [exact Hx|]. split; [now apply fits_int|reflexivity].
  - destruct m; [discriminate|]. destruct (units_take _ _ _ _ _ P U) as [Ua _]. apply take_ok in P as [_ P].
    eexists. split; [exact Hx|]. split; [|reflexivity]. unfold fits. rewrite <- pow256_2.
    destruct swapped; [rewrite <- P; now apply of_le_bound|]. rewrite <- P, <- rev_length. apply of_le_bound. apply Forall_rev, Ua.
  - andb W. destruct m; [|discriminate]. apply Nat.ltb_lt in W0. destruct (units_take _ _ _ _ _ P U) as [Ua _]. apply take_ok in P as [_ P].
    eexists. split; [exact Hx|]. split; [now apply fits_bits|reflexivity].
Qed.
Lemma u8_range m ctx s w r : wf m (CInt 1 false) = true -> units m s -> parse (CInt 1 false) ctx s = Ok (w, r) -> exists z, w = VInt z /\ 0 <= z <= 255.
Proof.
  intros W U P. destruct (intc_parse (CInt 1 false) m ctx s w r eq_refl W U P) as (z & -> & C). exists z. split; [reflexivity|].
  destruct (C (VInt z) true [] [] eq_refl) as (z' & E & F & _). injection E as <-. unfold fits in F. simpl in F. lia.
Qed.

Lemma by_value_shape t z y : by_value t z = Some y -> exists n, y = VEnum n z.
Proof. induction t as [|[n w] t IH]; cbn [by_value]; [discriminate|]. destruct (Z.eqb_spec z w); [intros [= <-]; subst; eauto|exact IH]. Qed.
Lemma pub_vint y z : y = VInt z -> pub y = VInt z. Proof. intros ->. reflexivity. Qed.


(** two bit fields *)
Lemma two_bits k1 n1 k2 n2 m ctx s w r : String.eqb k2 k1 = false -> let c := CBitwise (CStruct (FCons k1 (CBits n1 false) (FCons k2 (CBits n2 false) FNil))) in
  wf m c = true -> parse c ctx s = Ok (w, r) ->
  exists a b, 0 <= a < 2 ^ Z.of_nat n1 /\ 0 <= b < 2 ^ Z.of_nat n2 /\ w = VDict [(k1, VInt a); (k2, VInt b)]
    /\ forall d dl eb ep x y, dget k1 d = Some x -> dget k2 d = Some y -> as_int x = Some a -> as_int y = Some b ->
       conf A_spec c dl eb ep (VDict d) (VDict [(k1, VInt a); (k2, VInt b)]).
Proof.
  intros Hk c W P. subst c. cbn [wf wff] in W. andb W. cbn [parse parse_fields] in P. apply bind_ok in P as ([w0 r0] & P & E).
  destruct (bits2bytes r0) as [bs [|]]; [|discriminate]. injection E as <- _.
  apply bind_ok in P as ([d r1] & P & E). injection E as <- _. apply bind_ok in P as ([x1 q1] & P1 & P). apply bind_ok in P as ([x2 q2] & P2 & P). injection P as <- _.
  apply bind_ok in P1 as ([a1 r3] & P1 & E). injection E as <- <-. apply bind_ok in P2 as ([a2 r4] & P2 & E). injection E as <- _.
  destruct (units_take true _ _ _ _ P1 (bytes2bits_bits s)) as [U1 U2]. destruct (units_take true _ _ _ _ P2 U2) as [U3 _].
  apply take_ok in P1 as [_ L1]. apply take_ok in P2 as [_ L2].
  pose proof (of_bits_bound a1 U1) as B1. pose proof (of_bits_bound a2 U3) as B2. rewrite L1 in B1. rewrite L2 in B2.
  exists (of_bits a1), (of_bits a2). split; [exact B1|]. split; [exact B2|]. cbn [dset]. rewrite Hk. split; [reflexivity|].
  intros d dl eb ep x y H1 H2 H3 H4. cbn [conf]. exists d. eexists. split; [reflexivity|]. split; [reflexivity|].
  cbn [conf_fields]. exists x, (VInt (of_bits a1)). split; [exact H1|]. split; [eexists; split; [exact H3|]; split; [exact B1|reflexivity]|].
  exists y, (VInt (of_bits a2)). split; [exact H2|]. split; [eexists; split; [exact H4|]; split; [exact B2|reflexivity]|].
  cbn [dset]. rewrite Hk. reflexivity.
Qed.

Section Adapt.
Variable u : bool.
Definition Sounda (k : option string) (a : adapter) (c1 : con) (dl : bool) : Prop :=
  forall m ctx s w r v eb ep, wf m c1 = true -> units m s -> parse c1 ctx s = Ok (w, r) -> decode a w = Ok v -> lossless u v ->
  match k with Some k => survives u k v | None => True end ->
  exists w1 w1' v', A_spec a v w1 w1' v' /\ conf A_spec c1 dl eb ep w1 w1' /\ eqv (pub v) v'.

Lemma sa_enum k t c dl : (intc c || match c with CFlag => true | _ => false end)%bool = true -> Sounda k (AEnum t) c dl.
Proof.
  intros I m ctx s w r v eb ep W U P D _ _. cbn [decode] in D. unfold enum_decode in D.
  assert (exists z, as_int w = Some z /\ forall x, as_int x = Some z -> exists w', conf A_spec c dl eb ep x w' /\ as_int w' = Some z) as (z & Hw & C).
  { apply orb_prop in I as [I|I].
    - destruct (intc_parse _ m ctx s w r I W U P) as (z & -> & C). exists z. split; [reflexivity|]. intros x Hx. exists (VInt z). auto.
    - destruct c; try discriminate I. cbn [parse] in P. destruct s as [|b s]; [discriminate|]. injection P as <- _.
      eexists. split; [reflexivity|]. intros x Hx. exists (VBool (truthy x)). split; [reflexivity|]. destruct (negb (b =? 0)) eqn:N; destruct x; cbn in Hx |- *; try discriminate;
        injection Hx as Hx; try (destruct b0; discriminate || reflexivity); subst; reflexivity. }
  rewrite Hw in D. destruct (by_value t z) as [y|] eqn:B; [|discriminate]. injection D as <-.
  destruct (by_value_shape t z y B) as (n & ->).
  destruct (C (VEnum n z) eq_refl) as (w' & Cw & Ew). exists (VEnum n z), w', (VEnum n z). split; [|split; [exact Cw|apply eqv_refl]].
  exists n, z. split; [now apply by_value_member|]. split; [left; reflexivity|]. auto.
Qed.

Lemma sa_valid k a c dl (p : Z -> bool) : intc c = true -> (forall w, decode a w = validate p w) ->
  (forall z, fits (if con_eqb c (CInt 2 false) then 16 else 0) false z \/ con_eqb c (CInt 2 false) = false -> p z = true -> A_spec a (VInt z) (VInt z) (VInt z) (VInt z)) -> Sounda k a c dl.
Proof.
  intros I Hd Hs m ctx s w r v eb ep W U P D _ _. rewrite Hd in D. destruct (intc_parse _ m ctx s w r I W U P) as (z & -> & C).
  unfold validate in D. cbn [as_int] in D. destruct (p z) eqn:E; [|discriminate]. injection D as <-.
  exists (VInt z), (VInt z), (VInt z). split; [|split; [now apply C|apply eqv_refl]].
  apply Hs; [|exact E]. destruct (con_eqb c (CInt 2 false)) eqn:Q; [left|now right]. apply con_eqb_spec in Q. subst c.
  destruct (C (VInt z) true [] [] eq_refl) as (z' & E' & F & _). injection E' as <-. exact F.
Qed.
Lemma class_of z : 0 <= z < 65536 -> addr_class (get_address_type z) z.
Proof. intros H. now apply address_type_spec. Qed.
Lemma addr_in k l : existsb (addr_eqb k) l = true <-> In k l.
Proof.
  rewrite existsb_exists. split.
  - intros (x & Hx & E). destruct k, x; try discriminate; exact Hx.
  - intros H. exists k. split; [exact H|]. destruct k; reflexivity.
Qed.

Lemma sa_range k lo hi c dl : intc c = true -> Sounda k (ARange lo hi) c dl.
Proof.
  intros I. eapply sa_valid; [exact I|reflexivity|]. intros z _ H. exists z. split; [reflexivity|]. split; [|auto].
  unfold in_range in H. apply andb_prop in H as [H1 H2]. split; [destruct lo; [now apply Z.leb_le|exact Logic.I]|destruct hi; [now apply Z.leb_le|exact Logic.I]].
Qed.
Lemma sa_mask k dl : Sounda k (AMask 61440) (CInt 2 false) dl.
Proof.
  eapply sa_valid; [reflexivity|reflexivity|]. intros z [F|F] H; [|discriminate]. exists z. split; [reflexivity|]. split; [reflexivity|].
  split; [|auto]. unfold fits in F. simpl in F. apply Z.eqb_eq in H. apply mask12 in H. rewrite Z.mod_small in H; lia.
Qed.
Lemma sa_addr_in k l dl : Sounda k (AAddrIn l) (CInt 2 false) dl.
Proof.
  eapply sa_valid; [reflexivity|reflexivity|]. intros z [F|F] H; [|discriminate]. unfold fits in F. simpl in F. apply addr_in in H.
  exists z, (get_address_type z). split; [reflexivity|]. split; [now apply class_of|]. auto.
Qed.
Lemma sa_addr_out k l dl : Sounda k (AAddrOut l) (CInt 2 false) dl.
Proof.
  eapply sa_valid; [reflexivity|reflexivity|]. intros z [F|F] H; [|discriminate]. unfold fits in F. simpl in F. cbv beta in H.
  exists z, (get_address_type z). split; [reflexivity|]. split; [now apply class_of|]. split; [|auto].
  intros X. apply addr_in in X. rewrite X in H. discriminate.
Qed.
Lemma sa_u8 k a dl : (forall z v, 0 <= z <= 255 -> decode a (VInt z) = Ok v -> lossless u v -> match k with Some k => survives u k v | None => True end ->
    exists v', A_spec a v (VInt z) (VInt z) v' /\ eqv (pub v) v') -> Sounda k a (CInt 1 false) dl.
Proof.
  intros H m ctx s w r v eb ep W U P D L K. destruct (intc_parse (CInt 1 false) m ctx s w r eq_refl W U P) as (z & -> & C).
  destruct (u8_range m ctx s _ r W U P) as (z' & E & R). injection E as <-.
  destruct (H z v R D L K) as (v' & A1 & E). exists (VInt z), (VInt z), v'. split; [exact A1|]. split; [now apply C|exact E].
Qed.
Lemma sa_log k mx i dl : 1 <= mx < 255 -> Sounda k (ALog 1 (Some mx) i) (CInt 1 false) dl.
Proof.
  intros Hm. apply sa_u8. intros z v Hz D _ _. cbn [decode as_intr as_int bind] in D. unfold log_decode in D.
  destruct (Z.eqb_spec z 0) as [-> |Hn]; [injection D as <-; exists (VInt 0); split; [|apply eqv_refl]; left; exists 0%Q; repeat split|].
  change (2 ^ (8 * 1) - 1) with 255 in D. destruct (Z.eqb_spec z 255) as [-> |H255].
  - destruct i; cbn [andb] in D.
    + injection D as <-. exists VInf. split; [|apply eqv_refl]. right. right. repeat split.
    + destruct (Z.ltb_spec mx 255); [discriminate|lia].
  - cbn [andb] in D. destruct (Z.ltb_spec mx z); [discriminate|]. injection D as <-. exists (VInt (2 ^ (z - 1))). split; [|apply eqv_refl].
    right. left. exists (inject_Z (2 ^ (z - 1))), z. split; [reflexivity|]. split; [change (2 ^ (8 * 1) - 1) with 255; lia|].
    split; [apply Qle_refl|]. split; [rewrite <- Zlt_Qlt; apply Z.pow_lt_mono_r; lia|]. split; [rewrite <- Zle_Qle; apply Z.pow_le_mono_r; lia|auto].
Qed.
Lemma sa_exp8 k dl : Sounda k ATimeExp8 (CInt 1 false) dl.
Proof.
  apply sa_u8. intros z v Hz D _ _. cbn [decode exp8_decode as_intr as_int bind] in D. unfold exp8_decode in D. cbn [as_intr as_int bind] in D.
  destruct (Z.eqb_spec z 0) as [-> |Hn]; [injection D as <-; exists (VInt 0); split; [|apply eqv_refl]; left; exists 0%Q; repeat split|].
  injection D as <-. rewrite exp8_value_float. exists (VFloat (exp8_float z)). split; [|apply eqv_refl].
  right. exists (exp8_float z), z. split; [reflexivity|]. split; [lia|]. split; [apply exp8_near; lia|auto].
Qed.
Lemma sa_delay dl : Sounda (Some "delay"%string) ADelay (CInt 1 false) dl.
Proof.
  apply sa_u8. intros z v Hz D _ K. cbn [decode delay_decode as_intr as_int bind] in D. unfold delay_decode in D. cbn [as_intr as_int bind] in D. injection D as <-.
  exists (VFloat (rnd64 (z # 200))). destruct K as (K & _). specialize (K eq_refl).
  assert (E : rnd64 (inject_Z z / inject_Z 200) = rnd64 (z # 200)) by (apply rnd64_comp; unfold Qdiv, Qinv, Qmult, Qeq, inject_Z; simpl; lia).
  rewrite E in *. split; [|apply eqv_refl].
  exists (rnd64 (z # 200)), z. split; [reflexivity|]. split; [lia|]. split; [|auto]. right. split; [reflexivity|]. intros X. now apply (K z X).
Qed.

Lemma sa_count k b kk r un c dl : existsb (row_eqb b kk r un c) scale_table = true -> Sounda k (ACount b kk r un) c dl.
Proof.
  intros H m ctx s w rest v eb ep W U P D _ _. apply existsb_exists in H as ([[[[[[b' k'] r'] n] d] un'] c'] & Hin & E).
  unfold row_eqb in E. andb E. apply Z.eqb_eq in E. apply Z.eqb_eq in E3. apply res_eqb_spec in E2. apply Bool.eqb_prop in E1. apply con_eqb_spec in E0. subst b' k' r' un' c'.
  destruct (row_ok _ _ _ _ _ _ _ Hin) as (Hr & Hd & Hb & Hf). clear Hin.
  assert (I : intc c = true) by (destruct Hf as (? & _ & [[? ->]| ->]); reflexivity).
  destruct (intc_parse _ m ctx s w rest I W U P) as (z & -> & C).
  assert (Hz : Z.abs z < 256 ^ b).
  { specialize (C (VInt z) true [] [] eq_refl). destruct Hf as (q & <- & [[sg ->]| ->]); destruct C as (z' & E & F & _); injection E as <-.
    - rewrite pow256_2. unfold fits in F. assert (2 ^ (8 * Z.of_nat q) = 2 * 2 ^ (8 * Z.of_nat q - 1)) by (rewrite <- Z.pow_succ_r by lia; f_equal; lia).
      assert (0 < 2 ^ (8 * Z.of_nat q - 1)) by (apply Z.pow_pos_nonneg; lia). destruct sg; lia.
    - rewrite pow256_2. unfold fits in F. lia. }
  assert (Hz33 : Z.abs z <= 2 ^ 33). { assert (256 ^ b <= 256 ^ 4) by (apply Z.pow_le_mono_r; lia). change (256 ^ 4) with (2 ^ 32) in H. lia. }
  cbn [decode as_intr as_int bind] in D. injection D as <-.
  destruct (scaled_near kk r n d z Hr Hd Hz33) as (x & Nx & Ax & Bx).
  assert (Known : (un = true -> z <> 256 ^ b - 1) -> count_decode b kk r un z = scaled kk r n d z).
  { intros Hk. assert (A1 : A_spec (ACount b kk r un) (scaled kk r n d z) (VInt z) (VInt z) (scaled kk r n d z)).
    { left. exists n, d, x, z. repeat (split; [eassumption|]). auto. }
    destruct (adapters_ok _ _ _ _ _ A1) as [_ Dx]. cbn [decode as_intr as_int bind] in Dx.
    destruct (Dx (VInt z) eq_refl) as (y & Ey & Py). injection Ey as <-. clear -Py Hr.
    unfold count_decode, scaled in *. destruct (un && (z =? 256 ^ b - 1))%bool; destruct r; cbn [pub] in Py; exact Py. }
  destruct (un && (z =? 256 ^ b - 1))%bool eqn:Q.
  - apply andb_prop in Q as [-> Qz]. apply Z.eqb_eq in Qz. exists (VInt z), (VInt z), (VFloat fmax).
    split; [|split; [now apply C|]].
    + right. exists fmax. unfold count_decode. rewrite Qz, Z.eqb_refl. cbn [andb]. repeat split; auto.
    + unfold count_decode. rewrite Qz, Z.eqb_refl. cbn [andb]. apply eqv_refl.
  - assert (Hk : un = true -> z <> 256 ^ b - 1) by (intros -> Ez; cbn [andb] in Q; apply Z.eqb_neq in Q; contradiction).
    rewrite (Known Hk). exists (VInt z), (VInt z), (scaled kk r n d z). split; [|split; [now apply C|]].
    + left. exists n, d, x, z. repeat (split; [eassumption|]). auto.
    + unfold scaled. destruct r; apply eqv_refl.
Qed.
Lemma sa_date k dl : Sounda k ADate (CBytesInt 3 true) dl.
Proof.
  intros m ctx s w r v eb ep W U P D _ _. destruct (intc_parse (CBytesInt 3 true) m ctx s w r eq_refl W U P) as (z & -> & C).
  cbn [decode date_decode as_intr as_int bind] in D. unfold date_decode in D. cbn [as_intr as_int bind] in D.
  destruct (C (VInt z) true [] [] eq_refl) as (z' & E' & F & _). injection E' as <-. unfold fits in F.
  destruct (Z.leb_spec min_day z); [|discriminate]. destruct (Z.leb_spec z max_day) as [Hz|]; [|discriminate]. injection D as <-. unfold max_day in Hz.
  exists (VInt z), (VInt z), (VDate z). split; [|split; [now apply C|apply eqv_refl]]. exists z. split; [lia|]. split; [left; reflexivity|]. auto.
Qed.
Lemma bytes_parse n m ctx s w r : wf m (CBytes n) = true -> units m s -> parse (CBytes n) ctx s = Ok (w, r) -> exists l, w = VBytes l /\ bytes l /\ length l = n.
Proof.
  intros W U P. cbn [parse wf] in *. apply bind_ok in P as ([a r0] & P & E). injection E as <- _. destruct m; [discriminate|].
  destruct (units_take _ _ _ _ _ P U) as [Ua _]. apply take_ok in P as [_ P]. eauto.
Qed.
Lemma sa_mac k n dl : Sounda k AMac (CBytes (S n)) dl.
Proof.
  intros m ctx s w r v eb ep W U P D _ _. destruct (bytes_parse _ _ _ _ _ _ W U P) as (l & -> & B & L). cbn [decode mac_decode] in D. injection D as <-.
  destruct (join_mac l B ltac:(intros ->; discriminate)) as [M1 M2].
  exists (VBytes l), (VBytes l), (VStr (join 58 (map hex2 l))). split; [|split; [now apply ci_bytes|apply eqv_refl]].
  exists (join 58 (map hex2 l)), (join 58 (map hex2 l)), l. split; [reflexivity|]. split; [exact M1|]. auto.
Qed.
Lemma sa_ip k c dl : Sounda (Some k) AIp c dl.
Proof.
  intros m ctx s w r v eb ep W U P D _ (_ & _ & _ & K & _). exfalso. cbn [decode ip_decode] in D. destruct w; try discriminate. injection D as <-. now eapply K.
Qed.
Lemma sa_string k n dl : Sounda k AFixedString (CPaddedString (EConst n)) dl.
Proof.
  intros m ctx s w r v eb ep W U P D _ _. cbn [decode] in D. injection D as <-. cbn [parse wf] in *. destruct m; [discriminate|].
  cbn [eval bind] in P. destruct (Z.ltb_spec n 0); [discriminate|].
  apply bind_ok in P as ([a r0] & P & E). destruct (utf8_decode (strip_nul a)) as [t|] eqn:T; [|discriminate]. injection E as <- _.
  destruct (units_take _ _ _ _ _ P U) as [Ua _]. apply take_ok in P as [_ P]. destruct (strip_sub a Ua) as [B1 B2].
  exists (VStr t), (VStr t), (VStr t). split; [exists t; auto|]. split; [|apply eqv_refl]. cbn [conf].
  exists n, t, (strip_nul a). repeat split; auto; [now apply utf8_back|lia|apply strip_last].
Qed.

Lemma sa_retransmit k iv dl : 0 < iv -> Sounda k (ARetransmit iv) config_Retransmit dl.
Proof.
  intros Hiv m ctx s w r v eb ep W U P D _ _.
  destruct (two_bits "interval_steps" 5 "count" 3 m ctx s w r eq_refl W P) as (a & b & Ha & Hb & -> & C). change (2 ^ Z.of_nat 5) with 32 in Ha. change (2 ^ Z.of_nat 3) with 8 in Hb.
  cbn in D. injection D as <-.
  exists (VDict [("count"%string, VInt b); ("interval_steps"%string, VInt a)]). eexists. eexists. split; [|split; [apply (C _ dl eb ep (VInt a) (VInt b)); reflexivity|]].
  - eexists _, (VInt b), b, (VInt ((a + 1) * iv)), a, _, (VInt b). repeat (split; [first [reflexivity|lia]|]). reflexivity.
  - apply eqv_refl.
Qed.

(** ** transition times: the 256 octets *)
Definition stepsb (x : Q) (r s : Z) : bool :=
  (0 <=? s) && (s <=? 63) &&
  (if r =? 0 then
     (Qleb (inject_Z s + (1 # 1000000)) (10 * x) && Qleb (10 * x) (inject_Z s + 1 - (1 # 1000000)) && (s <? 63))
     || (Qeq_bool x (rnd64 (inject_Z s * flit 1 10)) && negb (s =? 43))
   else (1 <=? r) && (r <=? 3) &&
     Qleb (if (r =? 1)%Z then 631 # 100 else if (r =? 2)%Z then 63 + (1 # 1000000) else 630 + (1 # 1000000)) x
     && Qleb (inject_Z s) (x / step_size r) && Qleb (x / step_size r) (inject_Z s + 1 - (1 # 1000000)) && Qleb x (63 * step_size r)).
Lemma stepsb_ok x r s : stepsb x r s = true -> steps_of x r s.
Proof.
  unfold stepsb, steps_of. intros H. andb H. apply Z.leb_le in H. apply Z.leb_le in H1. split; [lia|]. destruct (r =? 0).
  - apply orb_prop in H0 as [H0|H0]; andb H0.
    + left. apply Qleb_spec in H0. apply Qleb_spec in H3. apply Z.ltb_lt in H2. auto.
    + right. left. apply Qeq_bool_iff in H0. apply negb_true_iff, Z.eqb_neq in H2. auto.
  - andb H0. apply Z.leb_le in H0. apply Z.leb_le in H6. apply Qleb_spec in H2. apply Qleb_spec in H3. apply Qleb_spec in H4. apply Qleb_spec in H5. split; [lia|]. auto.
Qed.
Definition eqvb (a b : val) : bool :=
  match a, b with
  | VInt x, VInt y => x =? y
  | VInt x, VFloat q => Qeq_bool (inject_Z x) q
  | VFloat p, VInt y => Qeq_bool (inject_Z y) p
  | VFloat p, VFloat q => Qeq_bool p q
  | _, _ => false
  end.
Lemma eqvb_ok a b : eqvb a b = true -> eqv a b.
Proof.
  destruct a, b; cbn [eqvb]; try discriminate; intros H.
  - apply Z.eqb_eq in H. subst. apply eqv_refl.
  - apply Qeq_bool_iff in H. now apply eqv_if.
  - apply Qeq_bool_iff in H. now apply eqv_fi.
  - apply Qeq_bool_iff in H. now apply eqv_ff.
Qed.
Definition restep (un : bool) (b : Z) : bool :=
  let v := step_value (b / 64) (b mod 64) in
  match num_of v, transition_encode un v with
  | Some x, Ok (VDict [(_, VInt s); (_, VInt r)]) =>
      (0 <=? r) && (r <=? 3) && stepsb x r s && eqvb v (step_value r s) && (un || (s <=? 62) && Qleb x ((6249 # 100) * step_size r))
  | _, _ => false
  end.
Lemma restep_checked : forallb (fun b => (b =? 43) || restep true b) (upto 256)
  && forallb (fun b => (b =? 43) || (b mod 64 =? 63) || restep false b) (upto 256) = true.
Proof. vm_compute. reflexivity. Qed.
Lemma restep_ok un b : 0 <= b < 256 -> b <> 43 -> (un = true \/ b mod 64 <> 63) ->
  exists x r s, let v := step_value (b / 64) (b mod 64) in num_of v = Some x /\ 0 <= r <= 3 /\ steps_of x r s /\ eqv v (step_value r s)
    /\ (un = false -> s <= 62 /\ (x <= (6249 # 100) * step_size r)%Q).
Proof.
  intros Hb H43 H63. assert (Hi : 0 <= b < Z.of_nat 256) by lia. pose proof restep_checked as C. apply andb_prop in C as [C1 C2].
  assert (R : restep un b = true).
  { destruct un.
    - pose proof (forallb_upto _ _ C1 b Hi) as F; clear C1 C2; cbv beta in F. apply orb_prop in F as [F|F]; [apply Z.eqb_eq in F; contradiction|exact F].
    - pose proof (forallb_upto _ _ C2 b Hi) as F; clear C1 C2; cbv beta in F.
      apply orb_prop in F as [F|F]; [apply orb_prop in F as [F|F]; apply Z.eqb_eq in F|exact F]; [contradiction|]. destruct H63; [discriminate|contradiction]. }
  clear C1 C2. unfold restep in R. set (v := step_value (b / 64) (b mod 64)) in *. destruct (num_of v) as [x|] eqn:N; [|discriminate].
  destruct (transition_encode un v) as [w| |]; try discriminate. destruct w as [| | | | | | | | | |d| | | | |]; try discriminate.
  destruct d as [|[? [| |s| | | | | | | | | | | | |]] [|[? [| |r| | | | | | | | | | | | |]] [|]]]; try discriminate.
  andb R. apply Z.leb_le in R. apply Z.leb_le in R3. exists x, r, s. cbv zeta. split; [exact N|]. split; [lia|]. split; [now apply stepsb_ok|]. split; [now apply eqvb_ok|].
  intros ->. cbn [orb] in R0. andb R0. apply Z.leb_le in R0. apply Qleb_spec in R4. auto.
Qed.
Lemma sa_transition k un dl : (String.eqb k "transition_time" || String.eqb k "remaining_time" && (un || negb u))%bool = true ->
  Sounda (Some k) (ATransition un) generics_TransitionTime dl.
Proof.
  intros Hk m ctx s w r v eb ep W U P D _ K.
  destruct (two_bits "resolution" 2 "steps" 6 m ctx s w r eq_refl W P) as (a & b & Ha & Hb & -> & C). change (2 ^ Z.of_nat 2) with 4 in Ha. change (2 ^ Z.of_nat 6) with 64 in Hb.
  assert (V : v = step_value a b).
  { cbn [decode transition_decode] in D. unfold dgetr in D. cbn [dget String.eqb Ascii.eqb Bool.eqb bind as_int] in D. unfold step_resolution in D. unfold step_value.
    assert (a = 0 \/ a = 1 \/ a = 2 \/ a = 3) as Hc by lia. destruct Hc as [-> | [-> | [-> | ->]]]; cbn [Z.eqb Pos.eqb times] in *; injection D as <-; [unfold fmul; rewrite fz_small by lia|..]; reflexivity. }
  clear D. subst v. destruct K as (_ & K43 & K63 & _).
  assert (T : k = "transition_time"%string \/ k = "remaining_time"%string /\ (un = true \/ u = false)).
  { apply orb_prop in Hk as [Hk|Hk]; [left; now apply String.eqb_eq|]. apply andb_prop in Hk as [Hk Hu]. right. split; [now apply String.eqb_eq|].
    apply orb_prop in Hu as [Hu|Hu]; [left; exact Hu|right; now apply negb_true_iff]. }
  set (o := 64 * a + b). assert (Eo : o / 64 = a /\ o mod 64 = b) by (unfold o; split; Z.div_mod_to_equations; lia). destruct Eo as [E1 E2].
  destruct (restep_ok un o) as (x & r' & s' & N & R & St & Q & Un).
  - unfold o. lia.
  - intros E. assert (a = 0 /\ b = 43) as [-> ->] by (unfold o in E; lia). apply K43; [destruct T as [T|[T _]]; auto|reflexivity].
  - destruct un; [now left|right]. rewrite E2. intros ->. apply (K63 ltac:(destruct T as [T|[T [T2|T2]]]; auto; discriminate) a); [lia|reflexivity].
  - cbv zeta in *. rewrite E1, E2 in *.
    assert (S63 : 0 <= s' <= 63) by apply St.
    assert (P2 : exists rr, parse generics_TransitionTime [] [64 * r' + s'] = Ok (VDict [("resolution"%string, VInt r'); ("steps"%string, VInt s')], rr)).
    { rewrite parse_steps by (unfold isbyte; (lia || constructor)). replace ((64 * r' + s') / 64) with r' by (Z.div_mod_to_equations; lia). replace ((64 * r' + s') mod 64) with s' by (Z.div_mod_to_equations; lia). eauto. }
    destruct P2 as (rr & P2). destruct (two_bits "resolution" 2 "steps" 6 m _ _ _ _ eq_refl W P2) as (a2 & b2 & _ & _ & E & C2). injection E as <- <-.
    exists (VDict [("steps"%string, VInt s'); ("resolution"%string, VInt r')]). eexists. exists (step_value r' s'). split; [|split; [apply (C2 _ dl eb ep (VInt r') (VInt s')); reflexivity|]].
    + exists x, r', s'. eexists. split; [exact N|]. split; [exact St|]. split; [exact Un|]. repeat (split; [reflexivity|]). reflexivity.
    + replace (pub (step_value a b)) with (step_value a b) by (unfold step_value; destruct (a =? 0); reflexivity). exact Q.
Qed.

(** ** sets *)
Lemma sa_set_gen k c dl (g : Z -> val) : dl = false -> (forall m ctx s x r, wf m c = true -> units m s -> parse c ctx s = Ok (x, r) ->
    exists z, x = g z /\ as_int (g z) = Some z /\ forall dl eb ep, conf A_spec c dl eb ep (g z) (g z)) -> Sounda k ASet (CGreedyRange c) dl.
Proof.
  intros -> H m ctx s w r v eb ep W U P D _ _. cbn [parse wf] in *. andb W. apply bind_ok in P as ([l r0] & P & E). injection E as <- _.
  pose proof (greedy_elems m _ _ _ _ _ (fun s0 v0 r0 U0 P0 => parse_units c m ctx s0 v0 r0 W U0 P0) U P) as F.
  cbn [decode set_decode] in D. injection D as <-.
  assert (exists zs, l = map g zs /\ Forall (fun z => as_int (g z) = Some z /\ forall dl eb ep, conf A_spec c dl eb ep (g z) (g z)) zs) as (zs & -> & Hz).
  { clear -H F W. induction F as [|x l (s & r & U & P) F IH]; [exists []; split; [reflexivity|constructor]|]. destruct IH as (zs & -> & Hz).
    destruct (H m ctx s x r W U P) as (z & -> & Hz'). exists (z :: zs). split; [reflexivity|]. constructor; auto. }
  rewrite Forall_forall in Hz. rewrite dedup_map by (intros z Iz; exact (proj1 (Hz z Iz))). set (l' := map g (zdedup zs)).
  exists (VSet l'), (VList l'), (VSet l'). split; [|split; [|apply eqv_refl]].
  - exists l', (zdedup zs). split; [reflexivity|]. split; [reflexivity|]. split; [|split; [apply zdedup_nodup|reflexivity]].
    unfold l'. rewrite map_map. apply map_ext_in. intros z Iz. apply (proj1 (zdedup_in _ _)) in Iz. exact (proj1 (Hz z Iz)).
  - cbn [conf]. split; [reflexivity|]. exists l', l'. split; [reflexivity|]. split; [reflexivity|].
    assert (Q : forall z, In z (zdedup zs) -> forall dl eb ep, conf A_spec c dl eb ep (g z) (g z)) by (intros z Iz; apply (proj1 (zdedup_in _ _)) in Iz; exact (proj2 (Hz z Iz))).
    unfold l'. clear -Q. induction (zdedup zs) as [|z q IH]; [exact I|]. cbn [map conf_list]. split; [apply Q; now left|]. apply IH. intros z' Hz'. apply Q. now right.
Qed.
Lemma sa_set k c dl : negb dl = true -> match c with CGreedyRange (CInt 1 false) | CGreedyRange (CAdapt (AEnum _) (CInt 1 false)) => true | _ => false end = true -> Sounda k ASet c dl.
Proof.
  intros Hd H. apply negb_true_iff in Hd. destruct c as [| | | | | | | | | | | | |c| | | | | | | | | | | | | | |]; try discriminate H.
  destruct c as [n sg| | | | | | | | | | | | | | | | | |a c| | | | | | | | | |]; try discriminate H.
  - destruct n as [|[|n]], sg; try discriminate H. apply sa_set_gen with (g := VInt); [exact Hd|].
    intros m ctx s x r W U P. destruct (intc_parse (CInt 1 false) m ctx s x r eq_refl W U P) as (z & -> & C). exists z. repeat split. intros. now apply C.
  - destruct a; try discriminate H. destruct c as [n sg| | | | | | | | | | | | | | | | | | | | | | | | | | | |]; try discriminate H. destruct n as [|[|n]], sg; try discriminate H.
    apply sa_set_gen with (g := fun z => match by_value t z with Some y => y | None => VInt z end); [exact Hd|].
    intros m ctx s x r W U P. cbn [parse] in P. apply bind_ok in P as ([w r0] & P & E). apply bind_ok in E as (y & D & E). injection E as <- _.
    destruct (intc_parse (CInt 1 false) m ctx s w r0 eq_refl W U P) as (z & -> & C). cbn [decode] in D. unfold enum_decode in D. cbn [as_int] in D.
    destruct (by_value t z) as [y'|] eqn:B; [|discriminate]. injection D as <-. destruct (by_value_shape _ _ _ B) as (n & ->). exists z. rewrite B. split; [reflexivity|]. split; [reflexivity|].
    intros dl0 eb ep. cbn [conf]. exists (VEnum n z), (VInt z). split; [now apply ex_enum|]. now apply C.
Qed.

(** ** bit lists *)
Definition bitv (b : bool) : val := VInt (if b then 1 else 0).
Lemma sa_bits k dl : Sounda k (ABitList 2 false) (CBitwise (CArray (EConst 16) (CBits 1 false))) dl.
Proof.
  intros m ctx s w r v eb ep W U P D _ _. cbn [wf] in W. cbn [parse eval bind] in P.
  apply bind_ok in P as ([w0 r0] & P & E). destruct (bits2bytes r0) as [q [|]]; [|discriminate]. injection E as <- _.
  change (16 <? 0) with false in P. cbv iota in P. apply bind_ok in P as ([l r1] & P & E). injection E as <- _. change (Z.to_nat 16) with 16%nat in P.
  assert (Hp : forall s v r, units true s -> parse (CBits 1 false) ctx s = Ok (v, r) -> units true r) by (intros s0 v0 r2 U0 P0; exact (parse_units (CBits 1 false) true ctx s0 v0 r2 eq_refl U0 P0)).
  destruct (times_elems true _ _ _ _ _ Hp (bytes2bits_bits s) P) as [L F]. clear P Hp.
  assert (exists bs, l = map bitv bs) as (bs & ->).
  { clear -F. induction F as [|x l (s & r & U & P) F IH]; [exists []; reflexivity|]. destruct IH as (bs & ->).
    destruct (intc_parse (CBits 1 false) true ctx s x r eq_refl eq_refl U P) as (z & -> & C). destruct (C (VInt z) true [] [] eq_refl) as (z' & E & Fz & _). injection E as <-.
    unfold fits in Fz. change (2 ^ Z.of_nat 1) with 2 in Fz. exists (negb (z =? 0) :: bs). cbn [map]. f_equal. unfold bitv. assert (z = 0 \/ z = 1) as [-> | ->] by lia; reflexivity. }
  rewrite map_length in L. cbn [decode bitlist_decode] in D. assert (E0 : set_bits 0 (map bitv bs) = map VInt (true_bits 0 bs)) by exact (set_bits_true bs 0%nat). rewrite E0 in D. injection D as <-.
  exists (VList (map VBool bs)), (VList (map bitv bs)), (VSet (map VInt (true_bits 0 bs))). split; [|split; [|apply eqv_refl]].
  - exists (map VInt (true_bits 0 bs)), bs. split; [reflexivity|]. split; [discriminate|]. split; [apply Forall_forall; intros x Hx; apply in_map_iff in Hx as (z & <- & _); eexists; reflexivity|].
    split; [exact L|]. split.
    { intros i Hi. split.
      - intros Hn. exists (VInt (Z.of_nat i)). split; [|reflexivity]. apply in_map. apply true_bits_in. exists i. auto.
      - intros (x & Hx & E). apply in_map_iff in Hx as (z & <- & Hz). injection E as ->. apply true_bits_in in Hz as (j & E & Hj). rewrite Nat.add_0_l in E. apply Nat2Z.inj in E. now subst. }
    split; [reflexivity|]. split; [reflexivity|]. exists (true_bits 0 bs). split; [reflexivity|]. split; [apply true_bits_sorted|]. intros z. rewrite true_bits_in. reflexivity.
  - cbn [conf]. exists (map VBool bs), (map bitv bs). split; [reflexivity|]. split; [reflexivity|]. rewrite map_length, L. split; [reflexivity|]. split; [reflexivity|].
    clear. induction bs as [|b bs IH]; [exact I|]. cbn [map conf_list]. split; [|exact IH]. exists (if b then 1 else 0). split; [reflexivity|]. split; [|reflexivity]. unfold fits. change (2 ^ Z.of_nat 1) with 2. destruct b; lia.
Qed.

(** ** key indices *)
Definition pair_item (x : val) : Prop :=
  (exists a b, index a /\ index b /\ x = VDict [("first"%string, VInt a); ("second"%string, VInt b)]) \/ (exists a, index a /\ x = VDict [("last"%string, VInt a)]).
Lemma item_parse m ctx s x r : wf m (CSelect (ACons pair_con (ACons last_con ANil))) = true -> units m s ->
  parse (CSelect (ACons pair_con (ACons last_con ANil))) ctx s = Ok (x, r) -> pair_item x.
Proof.
  intros W U P. change (parse_alts (ACons pair_con (ACons last_con ANil)) ctx s = Ok (x, r)) in P. cbn [parse_alts] in P.
  cbn [wf wfa] in W. andb W.
  assert (H1 : forall y q, parse pair_con ctx s = Ok (y, q) -> pair_item y).
  { intros y q Q. unfold pair_con in Q, W. match type of Q with parse (CReversed 3 ?c) _ _ = _ => change (parse (CReversed 3 c) ctx s) with
      (let* q := take 3 s in let (a, r) := (q : list Z * list Z) in let* q' := parse c ctx (rev a) in let (v, r') := (q' : val * list Z) in match r' with [] => Ok (v, r) | _ => Err EOther end) in Q end.
    apply bind_ok in Q as ([a q0] & Q0 & Q). apply bind_ok in Q as ([v q1] & Q1 & Q). destruct q1; [|discriminate]. injection Q as <- _.
    assert (Wc : wf false (CBitwise (CStruct (FCons "first" (CBits 12 false) (FCons "second" (CBits 12 false) FNil)))) = true) by reflexivity.
    destruct (two_bits "first" 12 "second" 12 false ctx _ _ _ eq_refl Wc Q1) as (x1 & x2 & B1 & B2 & -> & _). left. exists x1, x2. auto. }
  assert (H2 : forall y q, parse last_con ctx s = Ok (y, q) -> pair_item y).
  { intros y q Q. unfold last_con in Q. match type of Q with parse (CReversed 2 ?c) _ _ = _ => change (parse (CReversed 2 c) ctx s) with
      (let* q := take 2 s in let (a, r) := (q : list Z * list Z) in let* q' := parse c ctx (rev a) in let (v, r') := (q' : val * list Z) in match r' with [] => Ok (v, r) | _ => Err EOther end) in Q end.
    apply bind_ok in Q as ([a q0] & Q0 & Q). apply bind_ok in Q as ([v q1] & Q1 & Q). destruct q1; [|discriminate]. injection Q as <- _.
    cbn [parse parse_fields] in Q1. apply bind_ok in Q1 as ([w0 r0] & P1 & E). destruct (bits2bytes r0) as [bs [|]]; [|discriminate]. injection E as <- _.
    apply bind_ok in P1 as ([d r1] & P1 & E). injection E as <- _. apply bind_ok in P1 as ([x1 q1] & P1 & P2). apply bind_ok in P2 as ([x2 q2] & P2 & P3). injection P3 as <- _.
    apply bind_ok in P2 as ([a2 r4] & P2 & E). injection E as <- _.
    destruct (units_take true _ _ _ _ P1 (bytes2bits_bits _)) as [_ U2]. destruct (units_take true _ _ _ _ P2 U2) as [U3 _]. apply take_ok in P2 as [_ L2].
    pose proof (of_bits_bound a2 U3) as B2. rewrite L2 in B2. right. exists (of_bits a2). split; [exact B2|reflexivity]. }
  destruct (parse pair_con ctx s) as [[y q]|e|] eqn:E1; [injection P as <- _; eapply H1; eauto| |discriminate].
  destruct (parse last_con ctx s) as [[y q]|e'|] eqn:E2; [injection P as <- _; eapply H2; eauto|discriminate|discriminate].
Qed.
Lemma sa_keys k dl : negb dl = true -> Sounda k AKeyIndices (CGreedyRange (CSelect (ACons pair_con (ACons last_con ANil)))) dl.
Proof.
  intros Hd m ctx s w r v eb ep W U P D _ _. apply negb_true_iff in Hd. subst dl.
  set (c := CSelect (ACons pair_con (ACons last_con ANil))) in *.
  change (parse (CGreedyRange c) ctx s) with (let* q := greedy (parse c ctx) (S (length s)) s in let (l, r) := (q : list val * list Z) in Ok (VList l, r)) in P.
  change (wf m c && prod c && Nat.ltb 0 (minsz c) = true) in W. andb W.
  apply bind_ok in P as ([l r0] & P & E). injection E as <- _.
  pose proof (greedy_elems m _ _ _ _ _ (fun s0 v0 r0 U0 P0 => parse_units c m ctx s0 v0 r0 W U0 P0) U P) as F.
  assert (G : exists zs, flatten_items l = Ok (map VInt zs) /\ Forall index zs).
  { clear -F W. induction F as [|x l (s & r & U & P) F IH]; [exists []; split; [reflexivity|constructor]|]. destruct IH as (zs & E & Fz).
    destruct (item_parse m ctx s x r W U P) as [(a & b & Ha & Hb & ->)|(a & Ha & ->)]; cbn [flatten_items]; rewrite E; cbn.
    - exists (a :: b :: zs). split; [reflexivity|]. apply Forall_cons; [exact Ha|]. apply Forall_cons; [exact Hb|exact Fz].
    - exists (a :: zs). split; [reflexivity|]. apply Forall_cons; [exact Ha|exact Fz]. }
  destruct G as (zs & Ez & Fz). cbn [decode key_indices_decode] in D. unfold key_indices_decode in D. rewrite Ez in D. cbn [bind] in D. rewrite isort_map in D. injection D as <-.
  exists (VList (pairs (zsort zs))), (VList (pairs (zsort zs))), (VList (map VInt (zsort zs))). split; [|split].
  - exists (zsort zs), (zsort zs). repeat split; auto using zsort_sorted.
  - change (false = false /\ exists l l', iter (VList (pairs (zsort zs))) = Some l /\ VList (pairs (zsort zs)) = VList l' /\ conf_list (fun dl x x' => conf A_spec c dl eb ep x x') false l l').
    split; [reflexivity|]. exists (pairs (zsort zs)), (pairs (zsort zs)). split; [reflexivity|]. split; [reflexivity|]. apply conf_pairs. eapply Permutation_Forall; [apply zsort_perm|exact Fz].
  - cbn [pub]. rewrite map_map. replace (map (fun x => pub (VInt x)) (zsort zs)) with (map VInt (zsort zs)) by (apply map_ext; reflexivity). apply eqv_refl.
Qed.

(** ** dates and times *)
Lemma stamp_inv m ctx s w r : wf m elt_Timestamp = true -> units m s -> parse elt_Timestamp ctx s = Ok (w, r) ->
  exists t tz raw, 0 <= t < 2 ^ 40 /\ 0 <= tz <= 255 /\ 0 <= raw < 65536
    /\ w = VDict [("tai_seconds"%string, VInt t); ("time_zone_offset"%string, VInt tz); ("tai_utc_delta_raw"%string, VInt raw)].
Proof.
  intros W U P. unfold elt_Timestamp in *. cbn [wf wff] in W. andb W.
  match type of P with parse (CStruct ?f) _ _ = _ => change (parse (CStruct f) ctx s) with (let* q := parse_fields f [] s in let (d, r) := (q : dict * list Z) in Ok (VDict d, r)) in P end.
  apply bind_ok in P as ([d r0] & P & E). injection E as <- _. cbn [parse_fields] in P.
  apply bind_ok in P as ([x1 q1] & P1 & P). apply bind_ok in P as ([x2 q2] & P2 & P). apply bind_ok in P as ([x3 q3] & P3 & P). injection P as <- _.
  assert (I1 : wf m (CBytesInt 5 true) = true) by (destruct m; [discriminate|reflexivity]). assert (I2 : wf m (CInt 1 false) = true) by (destruct m; [discriminate|reflexivity]). assert (I3 : wf m (CBytesInt 2 true) = true) by (destruct m; [discriminate|reflexivity]).
  pose proof (parse_units _ _ _ _ _ _ I1 U P1) as U1. pose proof (parse_units _ _ _ _ _ _ I2 U1 P2) as U2.
  destruct (intc_parse (CBytesInt 5 true) m _ _ _ _ eq_refl I1 U P1) as (t & -> & C1). destruct (C1 (VInt t) true [] [] eq_refl) as (? & E1 & F1 & _). injection E1 as <-.
  destruct (u8_range m _ _ _ _ I2 U1 P2) as (tz & -> & F2).
  destruct (intc_parse (CBytesInt 2 true) m _ _ _ _ eq_refl I3 U2 P3) as (raw & -> & C3). destruct (C3 (VInt raw) true [] [] eq_refl) as (? & E3 & F3 & _). injection E3 as <-.
  exists t, tz, raw. split; [exact F1|]. split; [exact F2|]. split; [exact F3|]. reflexivity.
Qed.
Lemma entry_survives d k x : lossless u (VDict d) -> dget k d = Some x -> survives u k x.
Proof. intros L H. apply L. apply entry_here. now apply dget_In. Qed.
Lemma sa_stamp k dl : Sounda k ATimestamp elt_Timestamp dl.
Proof.
  intros m ctx s w r v eb ep W U P D L _. destruct (stamp_inv _ _ _ _ _ W U P) as (t & tz & raw & Ht & Hz & Hr & ->). clear P W U.
  cbn [decode] in D. unfold timestamp_decode, geti, dgetr in D. cbn [dget String.eqb Ascii.eqb Bool.eqb bind as_intr as_int] in D. unfold as_intr in D. cbn [as_int bind] in D.
  destruct (Z.odd (raw / 32768)) eqn:O; [discriminate|].
  assert (Hd : 0 <= raw < 32768). { destruct (Z.lt_ge_cases raw 32768); [lia|]. replace (raw / 32768) with 1 in O by (Z.div_mod_to_equations; lia). discriminate. }
  rewrite (Z.mod_small raw 32768) in D by lia. unfold zone_seconds in D. set (off := (tz - 64) * 900) in *.
  destruct (tz_ok off) eqn:T; [|discriminate]. cbn [negb] in D. unfold tz_ok in T. rewrite andb_true_iff, !Z.ltb_lt in T. change mesh_epoch with y2000 in D.
  destruct (in_dt ((t + y2000) * 1000000)) eqn:R1; [|discriminate]. destruct (in_dt ((t + y2000) * 1000000 + off * 1000000)) eqn:R2; [|discriminate].
  destruct (in_dt ((t + y2000) * 1000000 + off * 1000000 - delta_of_mesh raw)) eqn:R3; [|discriminate]. cbn [andb] in D. injection D as <-.
  apply in_dt_spec in R1, R2, R3. unfold delta_of_mesh in *.
  destruct (entry_survives _ "date" _ L eq_refl) as (_ & _ & _ & _ & _ & K). destruct (K eq_refl) as [_ K']. specialize (K' _ _ eq_refl).
  exists (VDict [("tai_seconds"%string, VInt t); ("tai_utc_delta_raw"%string, VInt raw); ("time_zone_offset"%string, VInt tz)]).
  exists (VDict [("tai_seconds"%string, VInt t); ("time_zone_offset"%string, VInt tz); ("tai_utc_delta_raw"%string, VInt raw)]).
  replace ((t + y2000) * 1000000 - (raw - 255) * 1000000) with ((t + y2000 - (raw - 255)) * 1000000) in * by lia.
  eexists. split; [|split; [|apply eqv_refl]].
  - cbn [pub hidden]. eexists _, _, ((t + y2000 - (raw - 255)) * 1000000), off, _, raw, t, 0, tz, _.
    split; [reflexivity|]. split; [reflexivity|]. split; [left; reflexivity|]. split; [reflexivity|]. split; [exact T|].
    split; [reflexivity|]. split; [left; reflexivity|]. split; [lia|]. split; [lia|]. split; [lia|]. split; [lia|].
    unfold dt_range, y2000 in *. split; [lia|]. split; [lia|]. split; [lia|]. split; [lia|]. split; [lia|].
    split; [reflexivity|]. split; [reflexivity|]. split; [reflexivity|]. split; [reflexivity|]. split; reflexivity.
  - apply ci_struct. eapply ci_fcons; [reflexivity|eapply ci_bytesint; [reflexivity|exact Ht]|].
    eapply ci_fcons; [reflexivity|eapply ci_int; [reflexivity|unfold fits; simpl; lia]|].
    eapply ci_fcons; [reflexivity|eapply ci_bytesint; [reflexivity|exact Hr]|]. apply ci_fnil.
Qed.

Lemma rne_tie a b : 0 < b -> 2 * Z.abs (a - rne a b * b) = b -> Z.even (rne a b) = true.
Proof.
  intros Hb H. unfold rne in *. pose proof (Z.div_mod a b ltac:(lia)) as D. pose proof (Z.mod_pos_bound a b Hb) as M. set (q := a / b) in *. set (r := a mod b) in *.
  destruct (Z.compare_spec (2 * r) b) as [E|E|E]; [|nia|nia]. destruct (Z.even q) eqn:Q; [exact Q|]. replace (q + 1) with (Z.succ q) by lia. rewrite Z.even_succ, <- Z.negb_even, Q. reflexivity.
Qed.
Lemma rne_256 sub : let mm := rne (sub * 1000000) 256 in Z.abs (256 * mm - 1000000 * sub) <= 128 /\ (Z.abs (256 * mm - 1000000 * sub) = 128 -> Z.even mm = true).
Proof.
  intros mm. pose proof (rne_bound (sub * 1000000) 256 ltac:(lia)) as B. pose proof (rne_tie (sub * 1000000) 256 ltac:(lia)) as T. fold mm in B, T. split; [lia|]. intros E. apply T. lia.
Qed.
Lemma time_inv m ctx s w r v : wf m time_Time = true -> units m s -> parse time_Time ctx s = Ok (w, r) -> decode ATime w = Ok v ->
  dget "date" (match v with VDict d => d | _ => [] end) = Some VNone \/
  exists t sub un dl au tz d, 0 <= t < 2 ^ 40 /\ 0 <= sub <= 255 /\ 0 <= un <= 255 /\ 0 <= dl < 32768 /\ 0 <= tz <= 255 /\ w = VDict d /\ t <> 0
    /\ dget "tai_seconds" d = Some (VInt t) /\ dget "subsecond" d = Some (VInt sub) /\ dget "uncertainty" d = Some (VInt un)
    /\ dget "tai_utc_delta" d = Some (VInt dl) /\ dget "time_authority" d = Some (VBool au) /\ dget "time_zone_offset" d = Some (VInt tz).
Proof.
  intros W U P D. assert (Hm : m = false) by (destruct m; [discriminate W|reflexivity]). subst m. clear W.
  unfold time_Time in P. match type of P with parse (CSelect ?l) _ _ = _ => change (parse (CSelect l) ctx s) with (parse_alts l ctx s) in P end. cbn [parse_alts] in P.
  assert (N : forall nm c, parse (CNamed nm c) ctx s = (let* q := parse c ctx s in let (v, r) := (q : val * list Z) in
      match v with VDict d => Ok (VDict (dset "_name" (VStr (cps nm)) d), r) | _ => Err EOther end)) by reflexivity.
  rewrite !N in P. clear N.
  assert (Z0 : forall d, dget "tai_seconds" d = Some (VInt 0) -> decode ATime (VDict d) = Ok v -> dget "date" (match v with VDict d => d | _ => [] end) = Some VNone).
  { intros d Hd E. cbn [decode time_decode] in E. unfold geti, dgetr in E. rewrite Hd in E. cbn in E. injection E as <-. reflexivity. }
  assert (F : forall (f : dict), forall s r, parse_fields (struct_fields time_TimeOptional) [] s = Ok (f, r) -> units false s ->
     dget "tai_seconds" f = Some (VInt 0) \/ exists t sub un dl au tz, 0 <= t < 2 ^ 40 /\ 0 <= sub <= 255 /\ 0 <= un <= 255 /\ 0 <= dl < 32768 /\ 0 <= tz <= 255 /\ t <> 0
       /\ dget "tai_seconds" f = Some (VInt t) /\ dget "subsecond" f = Some (VInt sub) /\ dget "uncertainty" f = Some (VInt un)
       /\ dget "tai_utc_delta" f = Some (VInt dl) /\ dget "time_authority" f = Some (VBool au) /\ dget "time_zone_offset" f = Some (VInt tz)).
  { clear. intros f s r P U. unfold time_TimeOptional in P. cbn [struct_fields parse_fields] in P.
    apply bind_ok in P as ([x1 q1] & P1 & P). 
    pose proof (parse_units (CBytesInt 5 true) false _ _ _ _ eq_refl U P1) as U1.
    destruct (intc_parse (CBytesInt 5 true) false _ _ _ _ eq_refl eq_refl U P1) as (t & -> & C1). destruct (C1 (VInt t) true [] [] eq_refl) as (? & E1 & F1 & _). injection E1 as <-. clear C1 P1.
    unfold dgetr in P. cbn [dset dget String.eqb Ascii.eqb Bool.eqb bind num_of] in P. unfold Qzero in P. cbn [inject_Z Qnum] in P.
    destruct (Z.eqb_spec t 0) as [Ht0|Hn]; [rewrite Ht0 in P; injection P as <- _; left; reflexivity|right].
    apply bind_ok in P as ([x2 q2] & P2 & P). pose proof (parse_units (CInt 1 false) false _ _ _ _ eq_refl U1 P2) as U2. destruct (u8_range false _ _ _ _ eq_refl U1 P2) as (sub & -> & F2). clear P2.
    apply bind_ok in P as ([x3 q3] & P3 & P). pose proof (parse_units (CInt 1 false) false _ _ _ _ eq_refl U2 P3) as U3. destruct (u8_range false _ _ _ _ eq_refl U2 P3) as (un & -> & F3). clear P3.
    apply bind_ok in P as ([ab q4] & P4 & P). destruct (units_take _ _ _ _ _ P4 U3) as [Ua U4]. clear P4.
    apply bind_ok in P as ([bd q5] & P5 & P). destruct q5; [|discriminate].
    apply bind_ok in P5 as ([y1 z1] & Q1 & P5). apply bind_ok in P5 as ([y2 z2] & Q2 & P5). injection P5 as <- _.
    destruct (intc_parse (CBits 15 false) true _ _ _ _ eq_refl eq_refl (bytes2bits_bits _) Q1) as (dl & -> & C5). destruct (C5 (VInt dl) true [] [] eq_refl) as (? & E5 & F5 & _). injection E5 as <-. clear C5 Q1.
    cbn [parse] in Q2. destruct z1 as [|fb z1]; [discriminate|]. injection Q2 as <- _.
    cbn [copy_named dset dget String.eqb Ascii.eqb Bool.eqb] in P.
    apply bind_ok in P as ([x6 q6] & P6 & P). destruct (u8_range false _ _ _ _ eq_refl U4 P6) as (tz & -> & F6). clear P6. injection P as <- _.
    exists t, sub, un, dl, (negb (fb =? 0)), tz. split; [exact F1|]. split; [exact F2|]. split; [exact F3|]. split; [exact F5|]. split; [exact F6|]. split; [exact Hn|].
    repeat split. }
  destruct (parse time_TimeOptional ctx s) as [[y q]|e|] eqn:E1; cbn [bind] in P.
  - change (parse time_TimeOptional ctx s) with (let* q := parse_fields (struct_fields time_TimeOptional) [] s in let (d, r) := (q : dict * list Z) in Ok (VDict d, r)) in E1.
    apply bind_ok in E1 as ([f q0] & E1 & E). injection E as <- _. injection P as <- _.
    destruct (F f s q0 E1 U) as [H0|(t & sub & un & dl & au & tz & H)]; [left; eapply Z0; [|exact D]; rewrite dget_dset_neq by discriminate; exact H0|].
    right. exists t, sub, un, dl, au, tz. eexists. destruct H as (A1 & A2 & A3 & A4 & A5 & A6 & A7 & A8 & A9 & A10 & A11 & A12). split; [exact A1|]. split; [exact A2|]. split; [exact A3|]. split; [exact A4|]. split; [exact A5|].
    split; [reflexivity|]. split; [exact A6|]. rewrite !dget_dset_neq by discriminate. repeat split; assumption.
  - assert (P2 : (let* q := parse time_TimeMinimal ctx s in let (v, r) := (q : val * list Z) in match v with VDict d => Ok (VDict (dset "_name" (VStr (cps "minimal")) d), r) | _ => Err EOther end) = Ok (w, r)).
    { destruct (parse time_TimeMinimal ctx s) as [[y q]| |]; cbn [bind] in *; [destruct y; try discriminate; exact P|discriminate|discriminate]. }
    clear P. rename P2 into P. apply bind_ok in P as ([y q] & P & E). cbn [time_TimeMinimal parse parse_fields] in P. unfold time_TimeMinimal in P. cbn [parse parse_fields] in P.
    apply bind_ok in P as ([f q0] & P & E2). injection E2 as <- <-. apply bind_ok in P as ([x q1] & P & E2). injection E2 as <- _.
    apply bind_ok in P as ([ab q2] & P & E2). injection E2 as <- _. injection E as <- _.
    left. cbn [decode time_decode dset String.eqb Ascii.eqb Bool.eqb] in D. unfold geti, dgetr in D. cbn [dget String.eqb Ascii.eqb Bool.eqb bind] in D. unfold as_intr in D. cbn [as_int bind] in D.
    match type of D with (if ?b then _ else _) = _ => destruct b end; [injection D as <-; reflexivity|discriminate].
  - discriminate.
Qed.

Lemma sa_time k dl : Sounda k ATime time_Time dl.
Proof.
  intros m ctx s w r v eb ep W U P D L _. destruct (time_inv _ _ _ _ _ _ W U P D) as [H|(t & sub & un & dd & au & tz & d & Ht & Hsub & Hun & Hdl & Hz & -> & Hn & G1 & G2 & G3 & G4 & G5 & G6)].
  - exfalso. destruct v as [| | | | | | | | | |vd| | | | |]; try discriminate H. destruct (entry_survives _ "date" _ L H) as (_ & _ & _ & _ & _ & K). now destruct (K eq_refl) as [K' _].
  - clear P W U. cbn [decode time_decode] in D. unfold geti, dgetr in D. rewrite G1, G2, G3, G4, G5, G6 in D. cbn [bind] in D. unfold as_intr in D. cbn [as_int bind] in D.
    destruct (Z.eqb_spec t 0); [contradiction|]. unfold zone_seconds in D. set (off := (tz - 64) * 900) in *.
    destruct (tz_ok off) eqn:T; [|discriminate]. cbn [negb] in D. unfold tz_ok in T. rewrite andb_true_iff, !Z.ltb_lt in T. change mesh_epoch with y2000 in D.
    set (mm := rne (sub * 1000000) 256) in *.
    assert (Hm : Z.abs (256 * mm - 1000000 * sub) <= 128 /\ (Z.abs (256 * mm - 1000000 * sub) = 128 -> Z.even mm = true)) by (apply rne_256).
    destruct Hm as [Hm Hme].
    destruct (in_dt ((t + y2000 + off) * 1000000 + mm)) eqn:R1; [|discriminate]. destruct (in_dt ((t + y2000 + off) * 1000000 + mm + off * 1000000)) eqn:R2; [|discriminate].
    cbn [andb truthy] in D. injection D as <-. apply in_dt_spec in R1, R2. unfold delta_of_mesh in *.
    destruct (entry_survives _ "date" _ L eq_refl) as (_ & _ & _ & _ & _ & K). destruct (K eq_refl) as [_ K']. specialize (K' _ _ eq_refl).
    destruct (entry_survives _ "uncertainty" _ L eq_refl) as (_ & _ & _ & _ & Ku & _). specialize (Ku eq_refl).
    assert (Nl : ~ In un lossy_delays) by (intros X; now apply (Ku un X)).
    exists (VDict (wire_time t sub un dd (VBool au) tz)).
    exists (VDict (wire_time t sub un dd (VBool au) tz)).
    eexists. split; [|split; [|apply eqv_refl]].
    + cbn [pub hidden]. unfold A_spec.
      eexists _, _, ((t + y2000 + off) * 1000000 + mm), off, t, mm, sub, _, un, _, dd, (VBool au), tz, _, (VBool au).
      split; [reflexivity|]. split; [reflexivity|]. split; [left; reflexivity|]. split; [reflexivity|]. split; [exact T|].
      split; [reflexivity|]. split; [lia|]. split; [lia|]. split; [exact Hsub|]. split; [lia|].
      unfold dt_range, y2000 in *. split; [lia|]. split; [lia|]. split; [lia|]. split; [lia|].
      split; [reflexivity|]. split; [split; [reflexivity|exact Nl]|]. split; [exact Hun|]. split; [reflexivity|]. split; [left; reflexivity|].
      split; [exact Hdl|]. split; [reflexivity|]. split; [reflexivity|]. split; [reflexivity|].
      split; [reflexivity|]. split; [reflexivity|]. split; [reflexivity|]. split; [reflexivity|]. split; [reflexivity|]. split; [now left|]. split; [reflexivity|].
      exists mm. split; [exact Hm|]. split; [exact Hme|]. reflexivity.
    + unfold time_Time. apply ci_select1. apply ci_named; [reflexivity|]. apply ci_struct. unfold wire_time.
      eapply ci_fcons; [reflexivity|eapply ci_bytesint; [reflexivity|exact Ht]|].
      cbn [dset dget String.eqb Ascii.eqb Bool.eqb]. 
      assert (Z0 : is_zero (VInt t) = false) by (unfold is_zero, Qzero; cbn; destruct (Z.eqb_spec t 0); [contradiction|reflexivity]).
      exists (VInt t), (VInt t). split; [reflexivity|]. split; [reflexivity|]. split; [reflexivity|]. rewrite Z0.
      eapply ci_fcons; [reflexivity|eapply ci_int; [reflexivity|unfold fits; simpl; lia]|].
      eapply ci_fcons; [reflexivity|eapply ci_int; [reflexivity|unfold fits; simpl; lia]|].
      cbn [dset dget String.eqb Ascii.eqb Bool.eqb]. 
      exists [("tai_utc_delta"%string, VInt dd); ("time_authority"%string, VBool au)]. split.
      * eapply ci_fcons; [reflexivity|eapply ci_bits; [reflexivity|exact Hdl]|]. eapply ci_fcons; [reflexivity|apply ci_flag; reflexivity|]. apply ci_fnil.
      * eapply ci_fcons; [reflexivity|eapply ci_int; [reflexivity|unfold fits; simpl; lia]|]. apply ci_fnil.
Qed.

Theorem adapters_sound : forall a c1 m dl k ctx s w r v eb ep, adok u k dl a c1 = true -> wf m c1 = true -> units m s ->
  parse c1 ctx s = Ok (w, r) -> decode a w = Ok v -> lossless u v -> match k with Some k => survives u k v | None => True end ->
  exists w1 w1' v', A_spec a v w1 w1' v' /\ conf A_spec c1 dl eb ep w1 w1' /\ eqv (pub v) v'.
Proof.
  intros a c1 m dl k ctx s w r v eb ep O.
  enough (S : Sounda k a c1 dl) by (intros; eapply S; eauto).
  destruct a; cbn [adok] in O.
  - now apply sa_enum.
  - now apply sa_range.
  - andb O. apply Z.eqb_eq in O. apply con_eqb_spec in O0. subst. apply sa_mask.
  - apply con_eqb_spec in O. subst. apply sa_addr_in.
  - apply con_eqb_spec in O. subst. apply sa_addr_out.
  - destruct max as [mx|]; [|discriminate]. andb O. apply con_eqb_spec in O0. apply Z.eqb_eq in O. apply Z.leb_le in O2. apply Z.ltb_lt in O1. subst. apply sa_log. lia.
  - now apply sa_count.
  - andb O. apply con_eqb_spec in O. subst. destruct k as [k|]; [|discriminate]. now apply sa_transition.
  - andb O. apply con_eqb_spec in O. subst. destruct k as [k|]; [|discriminate]. apply String.eqb_eq in O0. subst. apply sa_delay.
  - andb O. apply Z.ltb_lt in O. apply con_eqb_spec in O0. subst. now apply sa_retransmit.
  - andb O. apply con_eqb_spec in O0. subst. now apply sa_keys.
  - andb O. apply con_eqb_spec in O0. apply Nat.eqb_eq in O. apply negb_true_iff in O1. subst. apply sa_bits.
  - andb O. now apply sa_set.
  - destruct c1 as [| | | | |n| | | | | | | | | | | | | | | | | | | | | | |]; try discriminate. destruct n; [discriminate|]. apply sa_mac.
  - destruct k as [k|]; [|discriminate]. apply sa_ip.
  - apply con_eqb_spec in O. subst. apply sa_date.
  - apply con_eqb_spec in O. subst. apply sa_exp8.
  - destruct c1 as [| | | | | | | |e| | | | | | | | | | | | | | | | | | | |]; try discriminate. destruct e; try discriminate. apply sa_string.
  - apply con_eqb_spec in O. subst. apply sa_time.
  - apply con_eqb_spec in O. subst. apply sa_stamp.
Qed.
End Adapt.

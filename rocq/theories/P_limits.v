(** * P_limits: documented messages are accepted, and restricted fields take exactly their documented values (C60). *)
From Coq Require Import Lia.
From Verif Require Import PyVal Bits Utf8 Adapters Construct Size Spec AdapterSpec Master Local Deps BitLayout Layout Doc Access AccessProofs AdapterProofs1 P_int LayoutAccept
  Codes G_config P_layout P_codes Limits.
Local Open Scope list_scope.
Local Open Scope Z_scope.

(** ** What one field takes *)
Definition adok (a : adapter) (z : Z) : bool :=
  match a with
  | AEnum t => match by_value t z with Some _ => true | None => false end
  | ARange lo hi => in_range lo hi z
  | AMask m => Z.land z m =? 0
  | AAddrIn l => existsb (addr_eqb (get_address_type z)) l
  | AAddrOut l => negb (existsb (addr_eqb (get_address_type z)) l)
  | _ => false
  end.
Fixpoint good (c : con) (z : Z) : bool := match c with CAdapt a c1 => adok a z && good c1 z | _ => true end.
Lemma adok_decode a w z : numad a = true -> as_int w = Some z -> (exists v, decode a w = Ok v) <-> adok a z = true.
Proof.
  intros Ha Hz. destruct a; try discriminate Ha; cbn [decode adok]; unfold enum_decode, validate; rewrite Hz.
  - destruct (by_value t z); split; [reflexivity | intros _; eauto | intros [v E]; discriminate | discriminate].
  - destruct (in_range lo hi z); split; [reflexivity | intros _; eauto | intros [v E]; discriminate | discriminate].
  - destruct (_ =? 0); split; [reflexivity | intros _; eauto | intros [v E]; discriminate | discriminate].
  - destruct (existsb _ _); split; [reflexivity | intros _; eauto | intros [v E]; discriminate | discriminate].
  - destruct (existsb _ _); cbn [negb]; split; [intros [v E]; discriminate | discriminate | reflexivity | intros _; eauto].
Qed.
Lemma adok_encode a v z : numad a = true -> as_int v = Some z -> (exists w, encode a v = Ok w) <-> adok a z = true.
Proof.
  intros Ha Hz. destruct a; try discriminate Ha; cbn [encode adok]; [rewrite (enum_encode_int _ _ _ Hz) | unfold validate; rewrite Hz..].
  - destruct (by_value t z); split; [reflexivity | intros _; eauto | intros [w E]; discriminate | discriminate].
  - destruct (in_range lo hi z); split; [reflexivity | intros _; eauto | intros [w E]; discriminate | discriminate].
  - destruct (_ =? 0); split; [reflexivity | intros _; eauto | intros [w E]; discriminate | discriminate].
  - destruct (existsb _ _); split; [reflexivity | intros _; eauto | intros [w E]; discriminate | discriminate].
  - destruct (existsb _ _); cbn [negb]; split; [intros [w E]; discriminate | discriminate | reflexivity | intros _; eauto].
Qed.
Lemma take_all n (s : list Z) : length s = n -> take n s = Ok (s, []).
Proof. intros L. rewrite <- (app_nil_r s) at 1. now apply take_app'. Qed.
Lemma num_take c : forall n, numc c = Some n -> forall s, length s = n -> (exists x, parse c [] s = Ok (x, [])) <-> good c (of_le s) = true.
Proof.
  assert (I : forall n s, length s = n -> parse (CInt n false) [] s = Ok (VInt (of_le s), [])).
  { intros n s L. cbn [parse]. rewrite (take_all _ _ L). reflexivity. }
  induction c; intros m Hm s Ls; try discriminate Hm.
  - destruct sg; [discriminate|]. injection Hm as <-. rewrite I by exact Ls. cbn [good]. split; eauto.
  - cbn [numc] in Hm. destruct swapped; [|discriminate]. injection Hm as <-. cbn [parse good]. split; [reflexivity|]. intros _.
    rewrite (take_all _ _ Ls). cbn [bind]. eauto.
  - cbn [numc] in Hm. destruct (numad a) eqn:Ha; [|discriminate]. specialize (IHc m Hm s Ls). cbn [parse good]. split.
    + intros [x H]. apply bind_ok in H as ([w r] & Ew & H). apply bind_ok in H as (v & Ev & H). injection H as <- ->.
      apply andb_true_intro. split; [|apply IHc; eauto]. apply (adok_decode a w (of_le s) Ha); [|eauto]. exact (num_parse c m Hm [] s w Ew).
    + intros H. apply andb_prop in H as [H1 H2]. destruct (proj2 IHc H2) as [w Ew]. rewrite Ew. cbn [bind].
      destruct (proj2 (adok_decode a w (of_le s) Ha (num_parse c m Hm [] s w Ew)) H1) as [v ->]. cbn [bind]. eauto.
  - cbn [numc] in Hm. destruct l as [|c1 l]; [discriminate|]. destruct c1; try discriminate. destruct a; try discriminate. destruct c1; try discriminate.
    destruct sg; [discriminate|]. destruct l as [|c2 l]; [discriminate|]. destruct c2; try discriminate. destruct sg; [discriminate|]. destruct l; [|discriminate].
    destruct (Nat.eqb_spec n n0); [|discriminate]. subst n0. injection Hm as <-. split; [reflexivity|]. intros _. cbn [parse_alts parse]. pose proof (I _ _ Ls) as E. cbn [parse] in E. rewrite E. cbn [bind].
    destruct (decode (AEnum t) (VInt (of_le s))) as [v|e|] eqn:Ed; cbn [bind]; eauto. exfalso. cbn [decode] in Ed. unfold enum_decode in Ed. cbn [as_int] in Ed. destruct (by_value t _); discriminate.
Qed.
Lemma numb_take c : numb c = true -> forall w, bleaf c = Some w -> forall m, 0 <= m < 2 ^ Z.of_nat w -> (exists x, parse c [] (to_bits w m) = Ok (x, [])) <-> good c m = true.
Proof.
  induction c; intros Hn w Hw m Rg; try discriminate Hn.
  - destruct sg; [discriminate|]. cbn [bleaf] in Hw. injection Hw as <-. cbn [parse good]. split; [reflexivity|]. intros _.
    rewrite take_all by apply to_bits_length. cbn [bind]. eauto.
  - cbn [bleaf] in Hw. cbn [numb] in Hn.
    assert (K : c = CFlag \/ numad a && numb c = true).
    { destruct a; try (right; exact Hn). destruct c; try (right; exact Hn). now left. }
    assert (Ha : numad a = true) by (destruct a; try (apply andb_prop in Hn as [Hn _]; exact Hn); reflexivity).
    destruct K as [-> | K].
    + cbn [bleaf] in Hw. injection Hw as <-. change (2 ^ Z.of_nat 1) with 2 in Rg.
      assert (E0 : exists w0, parse CFlag [] (to_bits 1 m) = Ok (w0, []) /\ as_int w0 = Some m).
      { assert (m = 0 \/ m = 1) as [-> | ->] by lia; (eexists; split; [vm_compute; reflexivity | reflexivity]). }
      destruct E0 as (w0 & E0 & Hz). change (parse (CAdapt a CFlag) [] (to_bits 1 m)) with (let* q := parse CFlag [] (to_bits 1 m) in let (w0, r) := (q : val * list Z) in let* v := decode a w0 in Ok (v, r)).
      rewrite E0. cbn [bind good]. rewrite andb_true_r, <- (adok_decode a w0 m Ha Hz). split; [intros [x H]; apply bind_ok in H as (v & Ev & _); eauto | intros [v ->]; cbn [bind]; eauto].
    + apply andb_prop in K as [_ K]. specialize (IHc K w Hw m Rg). cbn [parse good]. split.
      * intros [x H]. apply bind_ok in H as ([v r] & Ew & H). apply bind_ok in H as (y & Ev & H). injection H as <- ->.
        apply andb_true_intro. split; [|apply IHc; eauto]. apply (adok_decode a v m Ha); [|eauto]. exact (numb_parse c K w Hw [] m v Rg Ew).
      * intros H. apply andb_prop in H as [H1 H2]. destruct (proj2 IHc H2) as [v Ew]. rewrite Ew. cbn [bind].
        destruct (proj2 (adok_decode a v m Ha (numb_parse c K w Hw [] m v Rg Ew)) H1) as [y ->]. cbn [bind]. eauto.
Qed.

Lemma num_give c : forall n, numc c = Some n -> forall ctx x z, as_int x = Some z -> 0 <= z < 2 ^ (8 * Z.of_nat n) -> (exists l, build c ctx x = Ok l) <-> good c z = true.
Proof.
  assert (I : forall n ctx x z, as_int x = Some z -> 0 <= z < 2 ^ (8 * Z.of_nat n) -> exists l, build (CInt n false) ctx x = Ok l).
  { intros n ctx x z Hz Rg. cbn [build]. unfold as_intr. rewrite Hz. cbn [bind]. unfold int_min, int_max. replace (_ && _) with true by lia. eauto. }
  induction c; intros m Hm ctx x z Hz Rg; try discriminate Hm.
  - destruct sg; [discriminate|]. injection Hm as <-. cbn [good]. split; [reflexivity|]. intros _. eapply I; eauto.
  - cbn [numc] in Hm. destruct swapped; [|discriminate]. injection Hm as <-. cbn [build good]. split; [reflexivity|]. intros _.
    unfold as_intr. rewrite Hz. cbn [bind]. replace (z <? 0) with false by lia. unfold integer2bytes.
    assert (Hn : (ndigits z <= n)%nat).
    { unfold ndigits. destruct (Z.eqb_spec z 0); [lia|]. assert (Z.log2 z < 8 * Z.of_nat n) by (apply Z.log2_lt_pow2; lia).
      assert (Z.log2 z / 8 < Z.of_nat n) by (apply Z.div_lt_upper_bound; lia). lia. }
    replace (Nat.leb (ndigits z) (2 * n)) with true by (symmetry; apply Nat.leb_le; lia). cbn [bind]. eauto.
  - cbn [numc] in Hm. destruct (numad a) eqn:Ha; [|discriminate]. cbn [build good]. split.
    + intros [l H]. apply bind_ok in H as (w & Ew & H). apply andb_true_intro. split; [apply (adok_encode a x z Ha Hz); eauto|].
      apply (IHc m Hm ctx w z (numad_encode _ _ _ _ Ha Ew Hz) Rg). eauto.
    + intros H. apply andb_prop in H as [H1 H2]. destruct (proj2 (adok_encode a x z Ha Hz) H1) as [w Ew]. rewrite Ew. cbn [bind].
      apply (IHc m Hm ctx w z (numad_encode _ _ _ _ Ha Ew Hz) Rg). exact H2.
  - cbn [numc] in Hm. destruct l as [|c1 l]; [discriminate|]. destruct c1; try discriminate. destruct a; try discriminate. destruct c1; try discriminate.
    destruct sg; [discriminate|]. destruct l as [|c2 l]; [discriminate|]. destruct c2; try discriminate. destruct sg; [discriminate|]. destruct l; [|discriminate].
    destruct (Nat.eqb_spec n n0); [|discriminate]. subst n0. injection Hm as <-. split; [reflexivity|]. intros _. cbn [build].
    destruct (I n ctx x z Hz Rg) as (l & E). cbn [build_alts]. rewrite E.
    destruct (build (CAdapt (AEnum t) (CInt n false)) ctx x) as [y|e|] eqn:Eb; [eauto | eauto |]. exfalso. exact (build_nodiv _ _ _ Eb).
Qed.
Lemma numb_give c : numb c = true -> forall w, bleaf c = Some w -> forall ctx x z, as_int x = Some z -> 0 <= z < 2 ^ Z.of_nat w -> (exists l, build c ctx x = Ok l) <-> good c z = true.
Proof.
  induction c; intros Hn w Hw ctx x z Hz Rg; try discriminate Hn.
  - destruct sg; [discriminate|]. cbn [bleaf] in Hw. injection Hw as <-. cbn [build good]. split; [reflexivity|]. intros _.
    unfold as_intr. rewrite Hz. cbn [bind]. replace (z <? 0) with false by lia. rewrite ?andb_false_r, ?andb_false_l. eauto.
  - cbn [bleaf] in Hw. cbn [numb] in Hn.
    assert (K : c = CFlag \/ numad a && numb c = true).
    { destruct a; try (right; exact Hn). destruct c; try (right; exact Hn). now left. }
    assert (Ha : numad a = true) by (destruct a; try (apply andb_prop in Hn as [Hn _]; exact Hn); reflexivity).
    destruct K as [-> | K].
    + cbn [build good]. rewrite andb_true_r, <- (adok_encode a x z Ha Hz). split; [intros [l H]; apply bind_ok in H as (v & Ev & _); eauto | intros [v ->]; cbn [bind]; eauto].
    + apply andb_prop in K as [_ K]. cbn [build good]. split.
      * intros [l H]. apply bind_ok in H as (v & Ev & H). apply andb_true_intro. split; [apply (adok_encode a x z Ha Hz); eauto|].
        apply (IHc K w Hw ctx v z (numad_encode _ _ _ _ Ha Ev Hz) Rg). eauto.
      * intros H. apply andb_prop in H as [H1 H2]. destruct (proj2 (adok_encode a x z Ha Hz) H1) as [v Ev]. rewrite Ev. cbn [bind].
        apply (IHc K w Hw ctx v z (numad_encode _ _ _ _ Ha Ev Hz) Rg). exact H2.
Qed.

(** ** Restrictions against the tables *)
Definition inr (z : Z) (r : ranges) : bool := existsb (fun p => (fst p <=? z) && (z <=? snd p)) r.
Lemma inr_spec z r : inr z r = true <-> exists lo hi, In (lo, hi) r /\ lo <= z <= hi.
Proof.
  unfold inr. rewrite existsb_exists. split.
  - intros ([lo hi] & Hi & H). cbn [fst snd] in H. exists lo, hi. split; [exact Hi | lia].
  - intros (lo & hi & Hi & H). exists (lo, hi). split; [exact Hi|]. cbn [fst snd]. lia.
Qed.
(** neighbouring ranges become one *)
Fixpoint join (lo hi : Z) (r : ranges) : ranges :=
  match r with
  | [] => [(lo, hi)]
  | (a, b) :: r' => if (a =? hi + 1) && (lo <=? hi + 1) && (a <=? b + 1) then join lo b r' else (lo, hi) :: join a b r'
  end.
Lemma join_inr z r : forall lo hi, inr z (join lo hi r) = inr z ((lo, hi) :: r).
Proof.
  induction r as [|[a b] r IH]; intros lo hi; [reflexivity|]. cbn [join]. destruct (_ && _) eqn:E.
  - rewrite IH. unfold inr. cbn [existsb fst snd]. rewrite orb_assoc. f_equal. lia.
  - unfold inr in *. cbn [existsb]. now rewrite IH.
Qed.
Definition kinds : list (addr_type * (Z * Z)) :=
  [(UNASSIGNED, (0, 0)); (UNICAST, (1, 0x7FFF)); (VIRTUAL, (0x8000, 0xBFFF)); (GROUP, (0xC000, 0xFEFF)); (RFU, (0xFF00, 0xFFFB));
   (ALL_PROXIES, (0xFFFC, 0xFFFC)); (ALL_FRIENDS, (0xFFFD, 0xFFFD)); (ALL_RELAYS, (0xFFFE, 0xFFFE)); (ALL_NODES, (0xFFFF, 0xFFFF))].
Lemma kinds_spec z : 0 <= z < 65536 -> forall P, inr z (map snd (filter (fun p => P (fst p)) kinds)) = P (get_address_type z).
Proof.
  intros Hz P. pose proof (proj1 (address_type_spec z (get_address_type z) ltac:(lia)) eq_refl) as A.
  assert (K : forall k, addr_class k z -> k = get_address_type z) by (intros k Hk; symmetry; now apply address_type_spec).
  apply Bool.eq_true_iff_eq. rewrite inr_spec. split.
  - intros (lo & hi & Hi & Hr). apply in_map_iff in Hi as ([k [a b]] & [= -> ->] & Hi). apply filter_In in Hi as [Hi Hp]. cbn [fst] in Hp. rewrite <- (K k); [exact Hp|].
    cbn [kinds In] in Hi. repeat (destruct Hi as [[= <- <- <-] | Hi]; [cbn [addr_class]; lia|]). destruct Hi.
  - intros Hp. destruct (get_address_type z) eqn:Ek; cbn [addr_class] in A;
      match goal with Hp : P ?k = true |- _ => assert (Hin : exists lo hi, In (k, (lo, hi)) kinds /\ lo <= z <= hi) by (cbn [kinds In]; eexists _, _; split; [eauto 12 | lia]);
       destruct Hin as (lo & hi & Hi & Hr); exists lo, hi; split; [|exact Hr]; apply in_map_iff; exists (k, (lo, hi)); split; [reflexivity|]; apply filter_In; split; [exact Hi | exact Hp] end.
Qed.
Definition joined (r : ranges) : ranges := match r with [] => [] | (lo, hi) :: r' => join lo hi r' end.
Lemma joined_inr z r : inr z (joined r) = inr z r.
Proof. destruct r as [|[lo hi] r]; [reflexivity | apply join_inr]. Qed.
(** what an adapter lets through, below [N] *)
Definition through (a : adapter) (N : Z) : option ranges :=
  match a with
  | ARange lo hi => Some [(match lo with Some l => l | None => 0 end, match hi with Some h => h | None => N - 1 end)]
  | AMask m => if (m =? 0xF000) && (N =? 65536) then Some [(0, 0xFFF)] else None
  | AAddrIn l => if N =? 65536 then Some (joined (map snd (filter (fun p => existsb (addr_eqb (fst p)) l) kinds))) else None
  | AAddrOut l => if N =? 65536 then Some (joined (map snd (filter (fun p => negb (existsb (addr_eqb (fst p)) l)) kinds))) else None
  | _ => None
  end.
Lemma mask_range z : 0 <= z < 65536 -> (Z.land z 0xF000 =? 0) = ((0 <=? z) && (z <=? 0xFFF)).
Proof.
  intros Hz. assert (E : Z.land z 0xF000 = (z / 4096) * 4096).
  { change 0xF000 with (Z.shiftl 15 12). replace (z / 4096 * 4096) with (Z.shiftl (Z.shiftr z 12) 12) by (rewrite Z.shiftl_mul_pow2, Z.shiftr_div_pow2 by lia; reflexivity).
    apply Z.bits_inj'. intros i Hi. rewrite Z.land_spec, !Z.shiftl_spec by lia. destruct (Z.ltb_spec i 12).
    - rewrite !(Z.testbit_neg_r _ (i - 12)) by lia. apply andb_false_r.
    - rewrite Z.shiftr_spec by lia. replace (i - 12 + 12) with i by lia. change 15 with (Z.ones 4). destruct (Z.ltb_spec i 16).
      + rewrite Z.ones_spec_low by lia. apply andb_true_r.
      + rewrite Z.ones_spec_high by lia. rewrite andb_false_r. symmetry. apply Z.bits_above_log2; [lia|]. destruct (Z.eq_dec z 0) as [->|]; [cbn; lia|]. assert (Z.log2 z < 16) by (apply Z.log2_lt_pow2; lia). lia. }
  rewrite E. pose proof (Z.div_mod z 4096 ltac:(lia)). pose proof (Z.mod_pos_bound z 4096 ltac:(lia)).
  destruct (Z.leb_spec z 0xFFF); [replace (z / 4096) with 0 by lia; lia|]. assert (1 <= z / 4096) by lia. lia.
Qed.
Lemma through_ok a N r z : through a N = Some r -> 0 <= z < N -> adok a z = inr z r.
Proof.
  intros H Hz. destruct a; cbn [through adok] in *; try discriminate.
  - injection H as <-. unfold inr, in_range. cbn [existsb fst snd]. rewrite orb_false_r. destruct lo, hi; lia.
  - destruct (_ && _) eqn:E; [|discriminate]. injection H as <-. apply andb_prop in E as [E1 E2]. apply Z.eqb_eq in E1, E2. subst. rewrite mask_range by lia. unfold inr. cbn [existsb fst snd]. lia.
  - destruct (Z.eqb_spec N 65536); [|discriminate]. injection H as <-. subst. rewrite joined_inr. symmetry. apply (kinds_spec z Hz (fun k => existsb (addr_eqb k) l)).
  - destruct (Z.eqb_spec N 65536); [|discriminate]. injection H as <-. subst. rewrite joined_inr. symmetry. apply (kinds_spec z Hz (fun k => negb (existsb (addr_eqb k) l))).
Qed.

(** the rows of a table below one key, and at the end of the path *)
Definition under {A} (k : string) (R : list (list string * A)) : list (list string * A) :=
  flat_map (fun r => match fst r with k' :: p => if String.eqb k k' then [(p, snd r)] else [] | [] => [] end) R.
Lemma under_in {A} k (R : list (list string * A)) p t : In (p, t) (under k R) <-> In (k :: p, t) R.
Proof.
  unfold under. rewrite in_flat_map. split.
  - intros ([q u] & Hr & H). cbn [fst snd] in H. destruct q as [|k' q]; [destruct H|]. destruct (String.eqb_spec k k') as [->|]; [|destruct H]. destruct H as [[= -> ->] | []]. exact Hr.
  - intros H. exists (k :: p, t). split; [exact H|]. cbn [fst snd]. rewrite String.eqb_refl. now left.
Qed.
Definition here {A} (R : list (list string * A)) : list A := flat_map (fun r => match fst r with [] => [snd r] | _ => [] end) R.
Lemma here_in {A} (R : list (list string * A)) t : In t (here R) <-> In ([], t) R.
Proof.
  unfold here. rewrite in_flat_map. split.
  - intros ([q u] & Hr & H). cbn [fst snd] in H. destruct q as [|k' q]; [|destruct H]. destruct H as [-> | []]. exact Hr.
  - intros H. exists ([], t). split; [exact H | now left].
Qed.
Definition narrow {A} (pre : list string) (R : list (list string * A)) : list (list string * A) := fold_left (fun R k => under k R) pre R.
Lemma narrow_in {A} pre : forall (R : list (list string * A)) p t, In (p, t) (narrow pre R) <-> In (pre ++ p, t) R.
Proof. induction pre as [|k pre IH]; intros R p t; [reflexivity|]. cbn [narrow fold_left]. fold (narrow pre (under k R)). rewrite IH, under_in. reflexivity. Qed.

Definition none {A} (l : list A) : bool := match l with [] => true | _ => false end.
Definition plainc (c : con) : bool := match c with CAdapt _ _ => false | _ => true end.
Definition ranges_eqb (a b : ranges) : bool :=
  Nat.eqb (length a) (length b) && forallb (fun q => (fst (fst q) =? fst (snd q)) && (snd (fst q) =? snd (snd q))) (combine a b).
Lemma ranges_eqb_ok a : forall b, ranges_eqb a b = true -> a = b.
Proof.
  unfold ranges_eqb. induction a as [|[x y] a IH]; intros [|[x' y'] b] H; try reflexivity; try discriminate H. cbn [length combine forallb fst snd Nat.eqb] in H.
  apply andb_prop in H as [H1 H]. apply andb_prop in H as [H2 H]. assert (x = x' /\ y = y') as [-> ->] by lia. f_equal. apply IH. now rewrite H1, H.
Qed.
Definition in_values (z : Z) (t : codes) : bool := match by_value t z with Some _ => true | None => false end.
Lemma in_values_ok z t : in_values z t = true <-> exists m, In (m, z) t.
Proof.
  unfold in_values. induction t as [|[n y] t IH]; cbn [by_value].
  - split; [discriminate | intros (m & [])].
  - destruct (Z.eqb_spec z y) as [->|N].
    + split; [intros _; exists n; now left | reflexivity].
    + rewrite IH. split; intros (m & Hm); exists m; [now right|]. destruct Hm as [[= -> ->] | Hm]; [congruence | exact Hm].
Qed.
Definition same_values (a b : codes) : bool := forallb (fun p => in_values (snd p) b) a && forallb (fun p => in_values (snd p) a) b.
Lemma same_values_ok a b z : same_values a b = true -> in_values z a = in_values z b.
Proof.
  unfold same_values. intros H. apply andb_prop in H as [H1 H2]. rewrite forallb_forall in H1, H2. apply Bool.eq_true_iff_eq. rewrite !in_values_ok. split; intros (m & Hm).
  - specialize (H1 _ Hm). now apply in_values_ok in H1.
  - specialize (H2 _ Hm). now apply in_values_ok in H2.
Qed.
Definition opens : list (list string * unit) := map (fun p => (p, tt)) open_codes.
Lemma opens_in p u : In (p, u) opens <-> In p open_codes.
Proof. unfold opens. rewrite in_map_iff. destruct u. split; [intros (q & [= ->] & H); exact H | intros H; exists p; auto]. Qed.
Section TABLES.
Variables (L : list (list string * ranges)) (C : paths) (U : list (list string * unit)).
Definition field_ok (k : string) (N : Z) (c : con) : bool :=
  let l := here (under k L) in let t := match here (under k U) with [] => here (under k C) | _ => [] end in
  match c with
  | CAdapt (AEnum e) c1 => plainc c1 && none l && negb (none t) && forallb (same_values e) t
  | CAdapt a c1 => plainc c1 && none t && negb (none l) && match through a N with Some r => forallb (ranges_eqb r) l | None => false end
  | _ => none l && none t
  end.
Definition fine (k : string) (z : Z) : Prop :=
  (forall r, In ([k], r) L -> exists lo hi, In (lo, hi) r /\ lo <= z <= hi) /\
  ((forall u, ~ In ([k], u) U) -> forall t, In ([k], t) C -> exists m, In (m, z) t).
Lemma none_ok {A} (l : list A) : none l = true -> l = [].
Proof. now destruct l. Qed.
Lemma field_ok_spec k N c z : field_ok k N c = true -> 0 <= z < N -> good c z = true <-> fine k z.
Proof.
  intros H Hz. unfold field_ok in H. set (l := here (under k L)) in *. set (t := match here (under k U) with [] => here (under k C) | _ => [] end) in *.
  assert (F : fine k z <-> (forall r, In r l -> inr z r = true) /\ (forall e, In e t -> in_values z e = true)).
  { unfold fine. subst l t. split; intros [H1 H2]; (split; [intros r Hr|]).
    - apply inr_spec. apply H1. apply under_in, here_in, Hr.
    - intros e He. apply in_values_ok. destruct (here (under k U)) eqn:Eu; [|destruct He]. apply H2; [|apply under_in, here_in, He].
      intros u Hu. apply under_in, here_in in Hu. rewrite Eu in Hu. destruct Hu.
    - apply inr_spec. apply H1. apply here_in, under_in, Hr.
    - intros Hu t Ht. apply in_values_ok. apply H2. destruct (here (under k U)) as [|u us] eqn:Eu; [apply here_in, under_in, Ht|].
      exfalso. apply (Hu u). apply under_in, here_in. rewrite Eu. now left. }
  rewrite F. clear F. clearbody l t.
  assert (A : forall a c1, c = CAdapt a c1 -> plainc c1 = true -> good c z = adok a z).
  { intros a c1 -> Hp. cbn [good]. destruct c1; try discriminate Hp; apply andb_true_r. }
  assert (W : forall a c1, c = CAdapt a c1 -> plainc c1 && none t && negb (none l) && match through a N with Some r => forallb (ranges_eqb r) l | None => false end = true ->
              good c z = true <-> (forall r, In r l -> inr z r = true) /\ (forall e, In e t -> in_values z e = true)).
  { intros a c1 Ec E. apply andb_prop in E as [E E4]. apply andb_prop in E as [E E3]. apply andb_prop in E as [E1 E2]. rewrite (A _ _ Ec E1). apply none_ok in E2. subst t.
    destruct (through a N) as [r|] eqn:Et; [|discriminate]. rewrite (through_ok _ _ _ z Et Hz). rewrite forallb_forall in E4. split.
    - intros Hr. split; [|intros e []]. intros r' Hr'. now rewrite <- (ranges_eqb_ok _ _ (E4 _ Hr')).
    - intros [Hr _]. destruct l as [|r' l]; [discriminate|]. rewrite (ranges_eqb_ok _ _ (E4 r' (or_introl eq_refl))). apply Hr. now left. }
  assert (T0 : forall l0 t0, none l = true -> none t = true -> l0 = l -> t0 = t -> (forall r, In r l -> inr z r = true) /\ (forall e, In e t -> in_values z e = true)).
  { intros _ _ E1 E2 _ _. apply none_ok in E1, E2. subst l t. split; intros ? []. }
  destruct c; try (apply andb_prop in H as [H1 H2]; split; [intros _; exact (T0 _ _ H1 H2 eq_refl eq_refl) | reflexivity]).
  destruct a; try (exact (W _ _ eq_refl H)).
  apply andb_prop in H as [E E4]. apply andb_prop in E as [E E3]. apply andb_prop in E as [E1 E2]. rewrite (A _ _ eq_refl E1). apply none_ok in E2. subst l. clear W A T0.
  cbn [adok]. fold (in_values z t0). rewrite forallb_forall in E4. split.
  - intros Hv. split; [intros r []|]. intros e He. now rewrite <- (same_values_ok _ _ z (E4 _ He)).
  - intros [_ Hv]. destruct t as [|e t]; [discriminate|]. rewrite (same_values_ok _ _ z (E4 e (or_introl eq_refl))). apply Hv. now left.
Qed.
Definition item_ok (i : item) : bool :=
  match i with
  | At k c off n => match cod n c with Num => field_ok k (2 ^ (8 * Z.of_nat n)) c | _ => true end
  | Bit k c be off n sh w => if numb c then field_ok k (2 ^ Z.of_nat w) c else true
  | _ => true
  end.
End TABLES.
Lemma fine_allowed pre k z : fine (narrow pre limits) (narrow pre code_paths) (narrow pre opens) k z <-> allowed (pre ++ [k]) z.
Proof.
  unfold fine, allowed. split; intros [H1 H2]; (split; [intros r Hr; apply H1; now apply narrow_in|]); intros Hu t Ht; apply H2.
  - intros u Hin. apply narrow_in, opens_in in Hin. contradiction.
  - now apply narrow_in.
  - intros Hin. apply (Hu tt). apply narrow_in, opens_in, Hin.
  - now apply narrow_in.
Qed.
Definition item_lim (pre : list string) : item -> bool := item_ok (narrow pre limits) (narrow pre code_paths) (narrow pre opens).
Lemma field_allowed pre k N c z : field_ok (narrow pre limits) (narrow pre code_paths) (narrow pre opens) k N c = true -> 0 <= z < N -> good c z = true <-> allowed (pre ++ [k]) z.
Proof. intros H Hz. rewrite <- fine_allowed. exact (field_ok_spec _ _ _ k N c z H Hz). Qed.

(** ** Rows *)
Lemma cod_cases n c : match cod n c with
  | Num => numc c = Some n
  | Sgn => c = CInt n true /\ (0 < n)%nat
  | Flag => c = CFlag /\ n = 1%nat
  | Raw => c = CBytes n
  | Own c' => c' = c
  end.
Proof.
  unfold cod. destruct (numc c) as [m|] eqn:E.
  - destruct (Nat.eqb_spec n m); [now subst | reflexivity].
  - destruct c; try reflexivity.
    + destruct sg; [|reflexivity]. destruct (_ && _) eqn:G; [|reflexivity]. apply andb_prop in G as [G1 G2]. apply Nat.eqb_eq in G1. apply Nat.ltb_lt in G2. now subst.
    + destruct (Nat.eqb_spec n 1); [now subst | reflexivity].
    + destruct (Nat.eqb_spec n n0); [now subst | reflexivity].
Qed.
Lemma slice_le_bound off n s : bytes s -> (off + n <= length s)%nat -> 0 <= of_le (slice off n s) < 2 ^ (8 * Z.of_nat n).
Proof. intros B L. rewrite <- pow256_2. pose proof (of_le_bound _ (slice_bytes off n s B)) as H. now rewrite (slice_full off n s L) in H. Qed.
Lemma row_take pre s i j : docd i = Some j -> item_lim pre i = true -> bytes s -> acceptable pre s j <-> takes s i.
Proof.
  intros D H B. unfold item_lim in H. destruct i; cbn [docd] in D.
  - injection D as <-. cbn [acceptable takes item_ok] in *. pose proof (cod_cases n c) as K. destruct (cod n c).
    + split; intros (Ln & G); (split; [exact Ln|]); pose proof (slice_le_bound off n s B Ln) as Hb.
      * apply (num_take c n K); [now apply slice_full|]. now apply (field_allowed pre k _ c _ H Hb).
      * apply (field_allowed pre k _ c _ H Hb). apply (num_take c n K); [now apply slice_full | exact G].
    + destruct K as [-> K]. split; intros (Ln & G); (split; [exact Ln|]); [|exact I]. cbn [parse]. rewrite (take_all _ _ (slice_full off n s Ln)). cbn [bind]. eauto.
    + destruct K as [-> ->]. split; intros (Ln & G); (split; [exact Ln|]); [|exact I]. pose proof (slice_full off 1 s Ln) as Lf. destruct (slice off 1 s) as [|b [|b' l]]; try discriminate Lf. cbn [parse]. eauto.
    + subst c. split; intros (Ln & G); (split; [exact Ln|]); [|exact I]. cbn [parse]. rewrite (take_all _ _ (slice_full off n s Ln)). cbn [bind]. eauto.
    + subst c0. reflexivity.
  - destruct (codb c) as [k'|] eqn:Ek; [|discriminate]. destruct (bleaf c) as [m|] eqn:Em; [|discriminate]. destruct (Nat.eqb_spec m w); [|discriminate]. subst m. injection D as <-.
    cbn [acceptable takes item_ok] in *. pose proof (getbits_bound sh w (word be off n s)) as Hb. unfold codb in Ek. destruct (numb c) eqn:Eb.
    + injection Ek as <-. split; intros (Ln & G); (split; [exact Ln|]).
      * apply (numb_take c Eb w Em _ Hb). now apply (field_allowed pre k _ c _ H Hb).
      * apply (field_allowed pre k _ c _ H Hb). now apply (numb_take c Eb w Em _ Hb).
    + destruct c; try discriminate. injection Ek as <-. cbn [bleaf] in Em. injection Em as <-. split; intros (Ln & G); (split; [exact Ln|]); [|exact I].
      pose proof (to_bits_length 1 (getbits sh 1 (word be off n s))) as Lf. destruct (to_bits 1 (getbits sh 1 (word be off n s))) as [|b [|b' l]]; try discriminate Lf. cbn [parse]. eauto.
  - injection D as <-. reflexivity.
  - injection D as <-. cbn [acceptable takes]. destruct c; try reflexivity. split; [intros _; cbn [parse]; eauto | intros _; exact I].
Qed.
Lemma row_give pre d i j : docd i = Some j -> item_lim pre i = true -> sendable pre d j -> gives d i.
Proof.
  intros D H. unfold item_lim in H. destruct i; cbn [docd] in D.
  - injection D as <-. cbn [sendable gives item_ok] in *. intros (x & Hx & Nx & G). exists x. pose proof (cod_cases n c) as K. destruct (cod n c).
    + destruct G as (z & Hz & Hr & Ha). destruct (proj2 (num_give c n K [] x z Hz Hr)) as (l & E); [now apply (field_allowed pre k _ c _ H Hr) | eauto].
    + destruct K as [-> K]. destruct G as (z & Hz & Hr). cbn [build]. unfold as_intr. rewrite Hz. cbn [bind]. unfold int_min, int_max. replace (_ && _) with true by lia. eauto.
    + destruct K as [-> ->]. cbn [build]. eauto.
    + subst c. destruct G as (l & -> & Ln). cbn [build]. rewrite Ln, ?Nat.eqb_refl. eauto.
    + subst c0. destruct G as (l & E). eauto.
  - destruct (codb c) as [k'|] eqn:Ek; [|discriminate]. destruct (bleaf c) as [m|] eqn:Em; [|discriminate]. destruct (Nat.eqb_spec m w); [|discriminate]. subst m. injection D as <-.
    cbn [sendable gives item_ok] in *. intros (x & Hx & Nx & G). exists x. unfold codb in Ek. destruct (numb c) eqn:Eb.
    + injection Ek as <-. destruct G as (z & Hz & Hr & Ha). destruct (proj2 (numb_give c Eb w Em [] x z Hz Hr)) as (l & E); [now apply (field_allowed pre k _ c _ H Hr) | eauto].
    + destruct c; try discriminate. cbn [build]. eauto.
  - intros _. exact Logic.I.
  - injection D as <-. cbn [sendable gives]. intros (x & Hx & Nx & G). exists x. destruct c; destruct G as (bl & G); try (exists bl; now auto). subst x. exists bl. auto.
Qed.
Lemma row_permitted pre d s i j : docd i = Some j -> item_lim pre i = true -> built d s i -> permitted pre d j.
Proof.
  intros D H. unfold item_lim in H. destruct i; cbn [docd] in D.
  - injection D as <-. cbn [built permitted item_ok] in *. intros (Ln & x & Hx & Hb). pose proof (cod_cases n c) as K. destruct (cod n c); try exact I.
    intros x' z Hx' Hz Hr. rewrite Hx in Hx'. injection Hx' as <-. apply (field_allowed pre k _ c _ H Hr). apply (num_give c n K d x z Hz Hr). eauto.
  - destruct (codb c) as [k'|] eqn:Ek; [|discriminate]. destruct (bleaf c) as [m|] eqn:Em; [|discriminate]. destruct (Nat.eqb_spec m w); [|discriminate]. subst m. injection D as <-.
    cbn [built permitted item_ok] in *. intros (Ln & x & bs & Hx & Hb & _). unfold codb in Ek. destruct (numb c) eqn:Eb.
    + injection Ek as <-. intros x' z Hx' Hz Hr. rewrite Hx in Hx'. injection Hx' as <-. apply (field_allowed pre k _ c _ H Hr). apply (numb_give c Eb w Em d x z Hz Hr). eauto.
    + destruct c; try discriminate. injection Ek as <-. exact I.
  - injection D as <-. intros _. exact I.
  - injection D as <-. intros _. exact I.
Qed.

(** ** Messages *)
Definition form_ok (pre : list string) (c : con) : bool :=
  match layout_of c with Some l => forallb lone l && forallb (item_lim pre) l | None => false end && octets_ok c && prod c.
Definition msg_ok (pre : list string) (c : con) : bool :=
  match c with
  | CSelect l => (fix go l := match l with ANil => true | ACons (CNamed n c) l' => form_ok pre c && negb (String.eqb n "") && go l' | _ => false end) l
  | _ => form_ok pre c
  end.
(** the fields [d1] of the form [f] in the parameters [d]: the entry of that name, or [d] itself *)
Definition chosen (f : string) (d d1 : dict) : Prop := if String.eqb f "" then d1 = d else form_fields f d d1.
Lemma form_take pre c dl ctx s : form_ok pre c = true -> doc_of c = Some dl -> bytes s -> Forall (acceptable pre s) dl -> exists u r, parse c ctx s = Ok (VDict u, r).
Proof.
  intros H D B F. unfold form_ok in H. unfold doc_of in D. destruct (layout_of c) as [l|] eqn:E; [|discriminate]. apply andb_prop in H as [H _]. apply andb_prop in H as [H Oc]. apply andb_prop in H as [Lo Li].
  apply (layout_take c l s ctx E Oc Lo B). rewrite forallb_forall in Li.
  assert (G : Forall (fun i => item_lim pre i = true -> takes s i) l).
  { eapply docds_Forall'; [|exact D|exact F]. intros i j Dj A Hi. now apply (row_take pre s i j Dj Hi B). }
  rewrite Forall_forall in *. intros i Hi. exact (G i Hi (Li i Hi)).
Qed.
Lemma form_taken pre c dl ctx s v r : form_ok pre c = true -> doc_of c = Some dl -> bytes s -> parse c ctx s = Ok (v, r) -> Forall (acceptable pre s) dl.
Proof.
  intros H D B Hp. unfold form_ok in H. unfold doc_of in D. destruct (layout_of c) as [l|] eqn:E; [|discriminate]. apply andb_prop in H as [H _]. apply andb_prop in H as [H Oc]. apply andb_prop in H as [Lo Li].
  rewrite (parse_agree c ctx []) in Hp by (rewrite (layout_deps _ _ E); apply agree_nil).
  destruct (layout_parse c l s v E B) as (u & -> & F); [unfold parse_msg; now rewrite Hp|].
  apply (docds_Forall (fun i => takes s i /\ item_lim pre i = true) (acceptable pre s) l dl); [|exact D|].
  - intros i j Dj [T Hi]. now apply (row_take pre s i j Dj Hi B).
  - rewrite forallb_forall in Li, Lo. rewrite Forall_forall in *. intros i Hi. split; [|now apply Li]. specialize (F i Hi). specialize (Lo i Hi).
    destruct i; cbn [parsed takes lone] in *; try (apply lone_deps in Lo).
    + destruct F as (Ln & x & _ & P). split; [exact Ln|]. exists x. rewrite (parse_agree c0 [] u); [exact P|]. rewrite Lo. apply agree_nil.
    + destruct F as (Ln & x & _ & P). split; [exact Ln|]. exists x. rewrite (parse_agree c0 [] u); [exact P|]. rewrite Lo. apply agree_nil.
    + exact F.
    + destruct F as (x & r' & _ & P). exists x, r'. rewrite (parse_agree c0 [] u); [exact P|]. rewrite Lo. apply agree_nil.
Qed.
Lemma form_give pre c dl ctx d : form_ok pre c = true -> plain c = true -> doc_of c = Some dl -> Forall (sendable pre d) dl -> exists s, build c ctx (VDict d) = Ok s.
Proof.
  intros H Pl D F. unfold form_ok in H. unfold doc_of in D. destruct (layout_of c) as [l|] eqn:E; [|discriminate]. apply andb_prop in H as [H _]. apply andb_prop in H as [H Oc]. apply andb_prop in H as [Lo Li].
  apply (layout_give c l d ctx E Pl Oc Lo). rewrite forallb_forall in Li.
  assert (G : Forall (fun i => item_lim pre i = true -> gives d i) l).
  { eapply docds_Forall'; [|exact D|exact F]. intros i j Dj A Hi. now apply (row_give pre d i j Dj Hi). }
  rewrite Forall_forall in *. intros i Hi. exact (G i Hi (Li i Hi)).
Qed.
Lemma form_permitted pre c dl ctx d s : form_ok pre c = true -> doc_of c = Some dl -> build c ctx (VDict d) = Ok s -> Forall (permitted pre (filled c d)) dl.
Proof.
  intros H D Hb. unfold form_ok in H. unfold doc_of in D. destruct (layout_of c) as [l|] eqn:E; [|discriminate]. apply andb_prop in H as [H _]. apply andb_prop in H as [H Oc]. apply andb_prop in H as [Lo Li].
  rewrite (build_agree c ctx []) in Hb by (rewrite (layout_deps _ _ E); apply agree_nil). pose proof (layout_build c l d s E Hb) as F. rewrite forallb_forall in Li.
  apply (docds_Forall (fun i => built (filled c d) s i /\ item_lim pre i = true) (permitted pre (filled c d)) l dl); [|exact D|].
  - intros i j Dj [T Hi]. exact (row_permitted pre _ s i j Dj Hi T).
  - rewrite Forall_forall in *. intros i Hi. auto.
Qed.
Lemma doc_build_dict c dl ctx x d1 : doc_of c = Some dl -> as_dict x = Ok d1 -> build c ctx x = build c ctx (VDict d1).
Proof.
  unfold doc_of. destruct (layout_of c) eqn:El; [|discriminate]. intros _ Ea. destruct c; cbn [layout_of] in El; try discriminate; cbn [build].
  - now rewrite Ea.
  - destruct c; try discriminate. cbn [build]. now rewrite Ea.
  - destruct c; try discriminate. destruct c; try discriminate. cbn [build]. now rewrite Ea.
Qed.
Lemma doc_build_nodict c dl ctx x s : doc_of c = Some dl -> build c ctx x = Ok s -> exists d1, as_dict x = Ok d1.
Proof.
  unfold doc_of. destruct (layout_of c) eqn:El; [|discriminate]. intros _ Eb. destruct c; cbn [layout_of] in El; try discriminate; cbn [build] in Eb.
  - apply bind_ok in Eb as (d1 & E & _). eauto.
  - destruct c; try discriminate. cbn [build] in Eb. apply bind_ok in Eb as (y & Eb & _). apply bind_ok in Eb as (d1 & E & _). eauto.
  - destruct c; try discriminate. destruct c; try discriminate. cbn [build] in Eb. apply bind_ok in Eb as (y & Eb & _). apply bind_ok in Eb as (y' & Eb & _). apply bind_ok in Eb as (d1 & E & _). eauto.
Qed.
Lemma msg_cases pre c : (exists l, c = CSelect l) \/
  (docs_of c = match doc_of c with Some d => Some [(""%string, d)] | None => None end /\ forms_ok c = plain c && sized c /\ msg_ok pre c = form_ok pre c).
Proof. destruct c; try (right; repeat split; reflexivity). left. eauto. Qed.
Lemma form_nodiv pre c n ctx s : form_ok pre c = true -> parse (CNamed n c) ctx s <> Diverge.
Proof. intros H. apply parse_nodiv. unfold form_ok in H. apply andb_prop in H as [_ H]. exact H. Qed.

Theorem msg_take pre c fl ctx s f dl : docs_of c = Some fl -> msg_ok pre c = true -> bytes s -> In (f, dl) fl -> Forall (acceptable pre s) dl -> exists v r, parse c ctx s = Ok (v, r).
Proof.
  intros Hf Ho B Hin F. destruct (msg_cases pre c) as [(l & ->) | (E1 & _ & E3)].
  2: { rewrite E1 in Hf. rewrite E3 in Ho. destruct (doc_of c) as [dl'|] eqn:E; [|discriminate]. injection Hf as <-. destruct Hin as [[= <- <-] | []].
    destruct (form_take pre c dl' ctx s Ho E B F) as (u & r & P). eauto. }
  cbn [docs_of msg_ok parse] in *. revert fl Hf Hin. induction l as [|c l IH]; intros fl Hf Hin; [discriminate Ho || (injection Hf as <-; destruct Hin)|]. cbn [docs_alts] in Hf. destruct c; try discriminate.
  destruct (doc_of c) as [dl'|] eqn:Ed; [|discriminate]. destruct (docs_alts l) as [fl'|] eqn:Er; [|discriminate]. injection Hf as <-.
  apply andb_prop in Ho as [Ho Ho2]. apply andb_prop in Ho as [Ho _]. cbn [parse_alts].
  destruct (parse (CNamed name c) ctx s) as [[v r]|e|] eqn:E; [eauto | | exfalso; exact (form_nodiv pre c name ctx s Ho E)].
  destruct Hin as [[= <- <-] | Hin]; [|exact (IH Ho2 fl' eq_refl Hin)]. exfalso. destruct (form_take pre c dl' ctx s Ho Ed B F) as (u & r & P). cbn [parse] in E. rewrite P in E. discriminate E.
Qed.
Theorem msg_taken pre c fl ctx s v r : docs_of c = Some fl -> msg_ok pre c = true -> bytes s -> parse c ctx s = Ok (v, r) -> exists f dl, In (f, dl) fl /\ Forall (acceptable pre s) dl.
Proof.
  intros Hf Ho B Hp. destruct (msg_cases pre c) as [(l & ->) | (E1 & _ & E3)].
  2: { rewrite E1 in Hf. rewrite E3 in Ho. destruct (doc_of c) as [dl'|] eqn:E; [|discriminate]. injection Hf as <-. exists ""%string, dl'. split; [now left|]. eapply form_taken; eauto. }
  cbn [docs_of msg_ok parse] in *. revert fl Hf. induction l as [|c l IH]; intros fl Hf; [discriminate Hp|]. cbn [docs_alts] in Hf. destruct c; try discriminate.
  destruct (doc_of c) as [dl'|] eqn:Ed; [|discriminate]. destruct (docs_alts l) as [fl'|] eqn:Er; [|discriminate]. injection Hf as <-.
  apply andb_prop in Ho as [Ho Ho2]. apply andb_prop in Ho as [Ho _]. cbn [parse_alts] in Hp.
  destruct (parse (CNamed name c) ctx s) as [[v' r']|e|] eqn:E; [| |discriminate].
  - exists name, dl'. split; [now left|]. cbn [parse] in E. apply bind_ok in E as ([v0 r0] & E & _). eapply form_taken; eauto.
  - destruct (IH Ho2 Hp fl' eq_refl) as (f & dl & Hin & F). exists f, dl. split; [now right | exact F].
Qed.
Theorem msg_give pre c fl ctx d f dl d1 : docs_of c = Some fl -> forms_ok c = true -> msg_ok pre c = true -> In (f, dl) fl -> chosen f d d1 -> Forall (sendable pre d1) dl ->
  exists s, build c ctx (VDict d) = Ok s.
Proof.
  intros Hf Fo Ho Hin Ch F. destruct (msg_cases pre c) as [(l & ->) | (E1 & E2 & E3)].
  2: { rewrite E1 in Hf. rewrite E3 in Ho. rewrite E2 in Fo. apply andb_prop in Fo as [Pl _]. destruct (doc_of c) as [dl'|] eqn:E; [|discriminate]. injection Hf as <-. destruct Hin as [[= <- <-] | []].
    unfold chosen in Ch. cbn in Ch. subst d1. eapply form_give; eauto. }
  cbn [docs_of msg_ok forms_ok build] in *. revert fl Hf Hin. induction l as [|c l IH]; intros fl Hf Hin; [injection Hf as <-; destruct Hin|]. cbn [docs_alts] in Hf. destruct c; try discriminate.
  destruct (doc_of c) as [dl'|] eqn:Ed; [|discriminate]. destruct (docs_alts l) as [fl'|] eqn:Er; [|discriminate]. injection Hf as <-.
  apply andb_prop in Ho as [Ho Ho2]. apply andb_prop in Ho as [Ho Nm]. apply andb_prop in Fo as [Fo Fo2]. apply andb_prop in Fo as [Fo _]. apply andb_prop in Fo as [Pl _]. cbn [build_alts].
  destruct (build (CNamed name c) ctx (VDict d)) as [s|e|] eqn:E; [eauto | | exfalso; exact (build_nodiv _ _ _ E)].
  destruct Hin as [[= <- <-] | Hin]; [|exact (IH Ho2 Fo2 fl' eq_refl Hin)]. exfalso. apply negb_true_iff in Nm. unfold chosen in Ch. rewrite Nm in Ch. unfold form_fields in Ch.
  destruct (form_give pre c dl' ctx d1 Ho Pl Ed F) as (s & P). cbn [build] in E. destruct (dget name d) as [x|].
  - rewrite (doc_build_dict c dl' ctx x d1 Ed Ch), P in E. discriminate E.
  - subst d1. rewrite P in E. discriminate E.
Qed.
Theorem msg_permitted pre c fl ctx d s : docs_of c = Some fl -> forms_ok c = true -> msg_ok pre c = true -> build c ctx (VDict d) = Ok s ->
  exists f dl d1 d', In (f, dl) fl /\ chosen f d d1 /\ given d1 d' /\ Forall (permitted pre d') dl /\ Forall (doc_built d' s) dl.
Proof.
  intros Hf Fo Ho Hb. destruct (msg_cases pre c) as [(l & ->) | (E1 & E2 & E3)].
  2: { rewrite E1 in Hf. rewrite E3 in Ho. rewrite E2 in Fo. apply andb_prop in Fo as [Pl _]. destruct (doc_of c) as [dl'|] eqn:E; [|discriminate]. injection Hf as <-. exists ""%string, dl', d, (filled c d).
    split; [now left|]. split; [reflexivity|]. split; [now apply filled_given|]. split; [eapply form_permitted; eauto | eapply doc_build; eauto]. }
  cbn [docs_of msg_ok forms_ok build] in *. revert fl Hf. induction l as [|c l IH]; intros fl Hf; [discriminate Hb|]. cbn [docs_alts] in Hf. destruct c; try discriminate.
  destruct (doc_of c) as [dl'|] eqn:Ed; [|discriminate]. destruct (docs_alts l) as [fl'|] eqn:Er; [|discriminate]. injection Hf as <-.
  apply andb_prop in Ho as [Ho Ho2]. apply andb_prop in Ho as [Ho Nm]. apply negb_true_iff in Nm. apply andb_prop in Fo as [Fo Fo2]. apply andb_prop in Fo as [Fo _]. apply andb_prop in Fo as [Pl _]. cbn [build_alts] in Hb.
  destruct (build (CNamed name c) ctx (VDict d)) as [s'|e|] eqn:E; [| |discriminate].
  - injection Hb as ->. assert (G : exists d1, chosen name d d1 /\ build c ctx (VDict d1) = Ok s).
    { cbn [build] in E. unfold chosen. rewrite Nm. unfold form_fields. destruct (dget name d) as [x|]; [|eauto]. destruct (doc_build_nodict c dl' ctx x s Ed E) as (d1 & Ea). exists d1. split; [exact Ea|]. now rewrite <- (doc_build_dict c dl' ctx x d1 Ed Ea). }
    destruct G as (d1 & Ch & Eb). exists name, dl', d1, (filled c d1). split; [now left|]. split; [exact Ch|]. split; [now apply filled_given|]. split; [eapply form_permitted; eauto | eapply doc_build; eauto].
  - destruct (IH Hb Ho2 Fo2 fl' eq_refl) as (f & dl & d1 & d' & Hin & K). exists f, dl, d1, d'. split; [now right | exact K].
Qed.

(** ** The tables agree with every documented message *)
Definition row_ok (z : Z) : bool := match params_of access_table z with Some (n, c) => msg_ok [lower n] c | None => false end.
Lemma rows_ok : forallb (fun r => row_ok (snd (fst r))) documented = true.
Proof. vm_cast_no_check (eq_refl true). Qed.
(** its text length depends on another field *)
Definition by_length : list string := ["SERVER_ADDRESS_AND_PORT_NUMBER_SET"%string].
Definition subrow_ok (z sz : Z) : bool :=
  match params_of access_table z with
  | Some (n, CSwitchStruct _ _ t _ cs) => match by_value t sz, find_case sz cs with Some (VEnum sn _), Some (_, c) => existsb (String.eqb sn) by_length || msg_ok [lower n; lower sn] c | _, _ => false end
  | _ => false
  end.
Lemma subrows_ok : forallb (fun r => match r with (n, z, sn, sz, fl) => subrow_ok z sz end) sub_doc = true.
Proof. vm_cast_no_check (eq_refl true). Qed.
Lemma limit_row n z fl : In (n, z, fl) documented ->
  exists t cs m c, family t (CSwitchStruct "opcode" (COpcode t) t "params" cs) /\ member t n z /\ find_case z cs = Some (m, c) /\
    forms_ok c = true /\ docs_of c = Some fl /\ msg_ok [lower n] c = true.
Proof.
  intros H. assert (D : doc_of_row z = Some (n, fl)).
  { revert H. pose proof documented_rows as Rw. revert Rw. generalize documented doc_of_row. intros l f Rw H. exact (map_eq_in (fun r => f (snd (fst r))) _ _ Rw _ H). }
  assert (K : row_ok z = true).
  { revert H. pose proof rows_ok as Rw. revert Rw. generalize documented row_ok. intros l f Rw H. rewrite forallb_forall in Rw. exact (Rw _ H). }
  revert D K. unfold doc_of_row, row_ok, family. pose proof access_shape as Sh. unfold family in Sh. generalize dependent access_table. intros l Sh D K.
  destruct (params_of l z) as [[n' c]|] eqn:P; [|discriminate]. destruct (forms_ok c) eqn:Fo; [|discriminate].
  destruct (docs_of c) as [fl'|] eqn:Dc; [|discriminate]. injection D as -> ->.
  apply params_of_spec in P as (t & k & kc & t' & sw & cs & m & Hin & Hm & Hc).
  destruct (Sh _ _ Hin) as (cs' & Es). injection Es as -> -> -> -> <-. exists t, cs, m, c. auto 8.
Qed.
Lemma limit_subrow n z sn sz fl : In (n, z, sn, sz, fl) sub_doc -> ~ In sn by_length ->
  exists t cs m t1 sw cs1 m1 c, family t (CSwitchStruct "opcode" (COpcode t) t "params" cs) /\ member t n z /\
    find_case z cs = Some (m, CSwitchStruct "subopcode" (CAdapt (AEnum t1) (CInt 1 false)) t1 sw cs1) /\ member t1 sn sz /\ find_case sz cs1 = Some (m1, c) /\
    (0 <= sz < 256)%Z /\ lower sn <> "subopcode"%string /\ forms_ok c = true /\ docs_of c = Some fl /\ msg_ok [lower n; lower sn] c = true.
Proof.
  intros H Nl. pose proof (sub_row _ _ _ _ _ H) as D.
  assert (K : subrow_ok z sz = true).
  { revert H. pose proof subrows_ok as Rw. revert Rw. generalize sub_doc subrow_ok. intros l f Rw H. rewrite forallb_forall in Rw. exact (Rw _ H). }
  clear H. revert D K. unfold doc_of_sub, subrow_ok, family. pose proof access_shape as Sh. unfold family in Sh. generalize dependent access_table. intros l Sh E K.
  destruct (params_of l z) as [[n' c]|] eqn:P; [|discriminate].
  destruct c; try discriminate. destruct c; try discriminate. destruct a; try discriminate. destruct c; try discriminate. destruct sg; try discriminate.
  destruct (by_value t sz) as [v|] eqn:Ev; [|discriminate]. destruct (by_value_int _ _ _ Ev) as (sn' & -> & _).
  destruct (find_case sz cs) as [[m1 c1]|] eqn:Fc; [|discriminate].
  match type of E with (if ?b then _ else _) = _ => destruct b eqn:Eb; [|discriminate] end.
  apply andb_prop in Eb as [Eb B7]. apply andb_prop in Eb as [Eb B6]. apply andb_prop in Eb as [Eb B5]. apply andb_prop in Eb as [Eb B4].
  apply andb_prop in Eb as [Eb B3]. apply andb_prop in Eb as [B1 B2].
  apply enum_eqb_spec in B2. apply String.eqb_eq in B3. apply Nat.eqb_eq in B4. subst.
  destruct (docs_of c1) as [fl'|] eqn:D; [|discriminate]. injection E as -> -> ->.
  assert (Mo : msg_ok [lower n; lower sn] c1 = true).
  { apply orb_prop in K as [K | K]; [|exact K]. exfalso. apply Nl. apply existsb_exists in K as (y & Hy & E). apply String.eqb_eq in E. now subst. }
  apply params_of_spec in P as (t0 & k0 & kc & t' & sw0 & cs0 & m & Hin & Hm & Hc).
  destruct (Sh _ _ Hin) as (cs' & Es). injection Es as -> -> -> -> <-.
  exists t0, cs0, m, t, sw, cs, m1, c1. repeat (split; [solve [auto using by_value_member | lia]|]). split; [|auto].
  intros Hl. rewrite Hl in B7. discriminate.
Qed.

(** *** C60: a received message with documented values in every field is accepted. *)
Theorem C60_accepted : forall n z fl f rows o p, In (n, z, fl) documented -> In (f, rows) fl -> opcode_bytes z o -> bytes p ->
  Forall (acceptable [lower n] p) rows -> exists v, access_parse (o ++ p) = Ok v.
Proof.
  intros n z fl f rows o p Hin Hr Ho B F. destruct (limit_row _ _ _ Hin) as (t & cs & m & c & Hf & Hm & Hc & Fo & D & Mo).
  rewrite (access_parse_family _ _ _ _ _ _ Hf Hm Ho). unfold parse_msg. cbn [parse]. rewrite (opcode_bytes_parse _ _ _ Ho). cbn [bind].
  rewrite (member_by_value _ _ _ Hm). cbn [bind]. rewrite (parse_case_of _ _ _ _ _ _ Hc).
  match goal with |- context[parse c ?x p] => destruct (msg_take [lower n] c fl x p f rows D Mo B Hr F) as (v & r & ->) end. cbn [bind]. eauto.
Qed.
(** *** C60: a message received holds documented values in every field of one of its forms. *)
Theorem C60_received : forall n z fl o p v, In (n, z, fl) documented -> opcode_bytes z o -> bytes p -> access_parse (o ++ p) = Ok v ->
  exists f rows, In (f, rows) fl /\ Forall (acceptable [lower n] p) rows.
Proof.
  intros n z fl o p v Hin Ho B H. destruct (limit_row _ _ _ Hin) as (t & cs & m & c & Hf & Hm & Hc & Fo & D & Mo).
  rewrite (access_parse_family _ _ _ _ _ _ Hf Hm Ho) in H. unfold parse_msg in H. apply bind_ok in H as ([v0 r0] & H & E). injection E as <-.
  cbn [parse] in H. rewrite (opcode_bytes_parse _ _ _ Ho) in H. cbn [bind] in H. rewrite (member_by_value _ _ _ Hm) in H. cbn [bind] in H.
  apply bind_ok in H as ([x r] & H & E). rewrite (parse_case_of _ _ _ _ _ _ Hc) in H. exact (msg_taken _ _ _ _ _ _ _ D Mo B H).
Qed.
(** *** C60: a message given documented values for every field of one of its forms is sent. *)
Theorem C60_sent : forall n z fl m op d f rows d1, In (n, z, fl) documented -> dget "opcode" m = Some op -> as_int op = Some z -> dget (lower n) m = Some (VDict d) ->
  In (f, rows) fl -> chosen f d d1 -> Forall (sendable [lower n] d1) rows -> exists s, access_build (VDict m) = Ok s.
Proof.
  intros n z fl mm op d f rows d1 Hin Hop Hz Hd Hr Ch F. destruct (limit_row _ _ _ Hin) as (t & cs & m & c & Hf & Hm & Hc & Fo & D & Mo).
  rewrite (access_build_family _ _ _ _ _ _ Hf Hm Hop Hz). unfold build_msg. cbn [build].
  destruct (legal_opcode_bytes z (family_legal _ _ _ _ Hf Hm)) as (o & Ho).
  unfold dgetr at 1. rewrite Hop. cbn [bind]. rewrite (int_key_as_int _ _ Hz), (member_by_value _ _ _ Hm).
  rewrite Hd. cbn [bind as_intr as_int]. rewrite (opcode_bytes_build _ _ Ho). cbn [bind]. rewrite (member_by_value _ _ _ Hm). cbn [bind].
  rewrite (build_case_of _ _ _ _ _ _ Hc).
  match goal with |- context[build c ?x (VDict d)] => destruct (msg_give [lower n] c fl x d f rows d1 D Fo Mo Hr Ch F) as (s & ->) end. cbn [bind]. eauto.
Qed.
(** *** C60: the numbers of a message sent are documented values. *)
Theorem C60_built : forall n z fl m op d s, In (n, z, fl) documented -> dget "opcode" m = Some op -> as_int op = Some z -> dget (lower n) m = Some (VDict d) -> access_build (VDict m) = Ok s ->
  exists o p f rows d1 d', s = o ++ p /\ opcode_bytes z o /\ In (f, rows) fl /\ chosen f d d1 /\ given d1 d' /\ Forall (permitted [lower n] d') rows /\ Forall (doc_built d' p) rows.
Proof.
  intros n z fl mm op d s Hin Hop Hz Hd Hb. destruct (limit_row _ _ _ Hin) as (t & cs & m & c & Hf & Hm & Hc & Fo & D & Mo).
  rewrite (access_build_family _ _ _ _ _ _ Hf Hm Hop Hz) in Hb. unfold build_msg in Hb. cbn [build] in Hb.
  destruct (legal_opcode_bytes z (family_legal _ _ _ _ Hf Hm)) as (o & Ho).
  unfold dgetr at 1 in Hb. rewrite Hop in Hb. cbn [bind] in Hb. rewrite (int_key_as_int _ _ Hz), (member_by_value _ _ _ Hm) in Hb.
  rewrite Hd in Hb. cbn [bind as_intr as_int] in Hb. rewrite (opcode_bytes_build _ _ Ho) in Hb. cbn [bind] in Hb.
  rewrite (member_by_value _ _ _ Hm) in Hb. cbn [bind] in Hb. apply bind_ok in Hb as (p & Hp & Hb). injection Hb as <-.
  rewrite (build_case_of _ _ _ _ _ _ Hc) in Hp. destruct (msg_permitted _ _ _ _ _ _ D Fo Mo Hp) as (f & rows & d1 & d' & K). exists o, p, f, rows, d1, d'. auto.
Qed.
(** *** C60: the same for the sub-messages of the vendor messages *)
Theorem C60_sub_accepted : forall n z sn sz fl f rows o q, In (n, z, sn, sz, fl) sub_doc -> ~ In sn by_length -> In (f, rows) fl -> opcode_bytes z o -> bytes q ->
  Forall (acceptable [lower n; lower sn] q) rows -> exists v, access_parse (o ++ sz :: q) = Ok v.
Proof.
  intros n z sn sz fl f rows o q Hin Nl Hrow Ho B F.
  destruct (limit_subrow _ _ _ _ _ Hin Nl) as (t & cs & m & t1 & sw & cs1 & m1 & c & Hf & Hm & Hc & Hm1 & Hc1 & Hr & Hn & Fo & D & Mo).
  rewrite (access_parse_family _ _ _ _ _ _ Hf Hm Ho). unfold parse_msg. cbn [parse]. rewrite (opcode_bytes_parse _ _ _ Ho). cbn [bind].
  rewrite (member_by_value _ _ _ Hm). cbn [bind]. rewrite (parse_case_of _ _ _ _ _ _ Hc). cbn [parse].
  change (sz :: q) with ([sz] ++ q). rewrite (take_app' 1 [sz]) by reflexivity. cbn [bind]. cbn [of_le decode].
  unfold enum_decode. cbn [as_int]. match goal with |- context[by_value t1 ?x] => replace x with sz by (unfold int_of; cbn [of_le]; lia) end. rewrite (member_by_value _ _ _ Hm1). cbn [bind].
  rewrite (parse_case_of _ _ _ _ _ _ Hc1).
  match goal with |- context[parse c ?x q] => destruct (msg_take [lower n; lower sn] c fl x q f rows D Mo B Hrow F) as (v & r & ->) end. cbn [bind]. eauto.
Qed.
Theorem C60_sub_received : forall n z sn sz fl o q v, In (n, z, sn, sz, fl) sub_doc -> ~ In sn by_length -> opcode_bytes z o -> bytes q -> access_parse (o ++ sz :: q) = Ok v ->
  exists f rows, In (f, rows) fl /\ Forall (acceptable [lower n; lower sn] q) rows.
Proof.
  intros n z sn sz fl o q v Hin Nl Ho B H.
  destruct (limit_subrow _ _ _ _ _ Hin Nl) as (t & cs & m & t1 & sw & cs1 & m1 & c & Hf & Hm & Hc & Hm1 & Hc1 & Hr & Hn & Fo & D & Mo).
  rewrite (access_parse_family _ _ _ _ _ _ Hf Hm Ho) in H. unfold parse_msg in H. apply bind_ok in H as ([v0 r0] & H & E). injection E as <-.
  cbn [parse] in H. rewrite (opcode_bytes_parse _ _ _ Ho) in H. cbn [bind] in H. rewrite (member_by_value _ _ _ Hm) in H. cbn [bind] in H.
  apply bind_ok in H as ([x r] & H & E). rewrite (parse_case_of _ _ _ _ _ _ Hc) in H. cbn [parse] in H.
  change (sz :: q) with ([sz] ++ q) in H. rewrite (take_app' 1 [sz]) in H by reflexivity. cbn [bind] in H. cbn [of_le decode] in H.
  unfold enum_decode in H. cbn [as_int] in H. match type of H with context[by_value t1 ?x] => replace x with sz in H by (unfold int_of; cbn [of_le]; lia) end. rewrite (member_by_value _ _ _ Hm1) in H. cbn [bind] in H.
  apply bind_ok in H as ([y r'] & H & E'). rewrite (parse_case_of _ _ _ _ _ _ Hc1) in H. exact (msg_taken _ _ _ _ _ _ _ D Mo B H).
Qed.
Theorem C60_sub_sent : forall n z sn sz fl m op p sop d f rows d1, In (n, z, sn, sz, fl) sub_doc -> ~ In sn by_length ->
  dget "opcode" m = Some op -> as_int op = Some z -> dget (lower n) m = Some (VDict p) -> dget "subopcode" p = Some sop -> as_int sop = Some sz -> dget (lower sn) p = Some (VDict d) ->
  In (f, rows) fl -> chosen f d d1 -> Forall (sendable [lower n; lower sn] d1) rows -> exists s, access_build (VDict m) = Ok s.
Proof.
  intros n z sn sz fl mm op p sop d f rows d1 Hin Nl Hop Hz Hp Hsop Hsz Hd Hrow Ch F.
  destruct (limit_subrow _ _ _ _ _ Hin Nl) as (t & cs & m & t1 & sw & cs1 & m1 & c & Hf & Hm & Hc & Hm1 & Hc1 & Hr & Hn & Fo & D & Mo).
  rewrite (access_build_family _ _ _ _ _ _ Hf Hm Hop Hz). unfold build_msg. cbn [build].
  destruct (legal_opcode_bytes z (family_legal _ _ _ _ Hf Hm)) as (o & Ho).
  unfold dgetr at 1. rewrite Hop. cbn [bind]. rewrite (int_key_as_int _ _ Hz), (member_by_value _ _ _ Hm).
  rewrite Hp. cbn [bind as_intr as_int]. rewrite (opcode_bytes_build _ _ Ho). cbn [bind]. rewrite (member_by_value _ _ _ Hm). cbn [bind].
  rewrite (build_case_of _ _ _ _ _ _ Hc). cbn [build]. unfold dgetr at 1. rewrite Hsop. cbn [bind].
  rewrite (int_key_as_int _ _ Hsz), (member_by_value _ _ _ Hm1). rewrite Hd. cbn [bind encode].
  rewrite (enum_encode_int _ (VEnum sn sz) sz eq_refl). rewrite (member_by_value _ _ _ Hm1). cbn [bind as_intr as_int].
  replace ((int_min 1 false <=? sz)%Z && (sz <=? int_max 1 false)%Z) with true by (unfold int_min, int_max; change (2 ^ (8 * Z.of_nat 1)) with 256; lia).
  cbn [bind]. rewrite (build_case_of _ _ _ _ _ _ Hc1).
  match goal with |- context[build c ?x (VDict d)] => destruct (msg_give [lower n; lower sn] c fl x d f rows d1 D Fo Mo Hrow Ch F) as (s & ->) end. cbn [bind]. eauto.
Qed.
Theorem C60_sub_built : forall n z sn sz fl m op p sop d s, In (n, z, sn, sz, fl) sub_doc -> ~ In sn by_length ->
  dget "opcode" m = Some op -> as_int op = Some z -> dget (lower n) m = Some (VDict p) -> dget "subopcode" p = Some sop -> as_int sop = Some sz -> dget (lower sn) p = Some (VDict d) -> access_build (VDict m) = Ok s ->
  exists o q f rows d1 d', s = o ++ sz :: q /\ opcode_bytes z o /\ In (f, rows) fl /\ chosen f d d1 /\ given d1 d' /\ Forall (permitted [lower n; lower sn] d') rows /\ Forall (doc_built d' q) rows.
Proof.
  intros n z sn sz fl mm op p sop d s Hin Nl Hop Hz Hp Hsop Hsz Hd Hb.
  destruct (limit_subrow _ _ _ _ _ Hin Nl) as (t & cs & m & t1 & sw & cs1 & m1 & c & Hf & Hm & Hc & Hm1 & Hc1 & Hr & Hn & Fo & D & Mo).
  rewrite (access_build_family _ _ _ _ _ _ Hf Hm Hop Hz) in Hb. unfold build_msg in Hb. cbn [build] in Hb.
  destruct (legal_opcode_bytes z (family_legal _ _ _ _ Hf Hm)) as (o & Ho).
  unfold dgetr at 1 in Hb. rewrite Hop in Hb. cbn [bind] in Hb. rewrite (int_key_as_int _ _ Hz), (member_by_value _ _ _ Hm) in Hb.
  rewrite Hp in Hb. cbn [bind as_intr as_int] in Hb. rewrite (opcode_bytes_build _ _ Ho) in Hb. cbn [bind] in Hb.
  rewrite (member_by_value _ _ _ Hm) in Hb. cbn [bind] in Hb. apply bind_ok in Hb as (q & Hq & Hb). injection Hb as <-.
  rewrite (build_case_of _ _ _ _ _ _ Hc) in Hq. cbn [build] in Hq. unfold dgetr at 1 in Hq. rewrite Hsop in Hq. cbn [bind] in Hq.
  rewrite (int_key_as_int _ _ Hsz), (member_by_value _ _ _ Hm1) in Hq. rewrite Hd in Hq. cbn [bind encode] in Hq.
  rewrite (enum_encode_int _ (VEnum sn sz) sz eq_refl) in Hq. rewrite (member_by_value _ _ _ Hm1) in Hq. cbn [bind as_intr as_int] in Hq.
  replace ((int_min 1 false <=? sz)%Z && (sz <=? int_max 1 false)%Z) with true in Hq by (unfold int_min, int_max; change (2 ^ (8 * Z.of_nat 1)) with 256; lia).
  cbn [bind] in Hq. apply bind_ok in Hq as (q1 & Hq1 & Hq). rewrite (build_case_of _ _ _ _ _ _ Hc1) in Hq1.
  destruct (msg_permitted _ _ _ _ _ _ D Fo Mo Hq1) as (f & rows & d1 & d' & K). exists o, q1, f, rows, d1, d'. split; [|auto].
  injection Hq as <-. f_equal. cbn [to_le app]. f_equal. apply Z.mod_small. lia.
Qed.

(** *** Concrete cases *)
Definition allowedb (path : list string) (z : Z) : bool :=
  forallb (inr z) (here (narrow path limits)) && (negb (none (here (narrow path opens))) || forallb (in_values z) (here (narrow path code_paths))).
Lemma allowedb_ok path z : allowedb path z = true <-> allowed path z.
Proof.
  assert (Nw : forall A (R : list (list string * A)) t, In t (here (narrow path R)) <-> In (path, t) R) by (intros A R t; rewrite here_in, narrow_in, app_nil_r; reflexivity).
  unfold allowedb, allowed. rewrite andb_true_iff, orb_true_iff, !forallb_forall. split.
  - intros [H1 H2]. split; [intros r Hr; apply inr_spec, H1, Nw, Hr|]. intros Hu t Ht. destruct H2 as [H2 | H2]; [|apply in_values_ok, H2, Nw, Ht].
    exfalso. apply Hu. destruct (here (narrow path opens)) as [|u us] eqn:E; [discriminate|]. apply (opens_in path u), Nw. rewrite E. now left.
  - intros [H1 H2]. split; [intros r Hr; apply inr_spec, H1, Nw, Hr|]. destruct (here (narrow path opens)) as [|u us] eqn:E; [|now left]. right. intros t Ht. apply in_values_ok. apply H2; [|apply Nw, Ht].
    intros Hu. apply (opens_in path tt), Nw in Hu. rewrite E in Hu. destruct Hu.
Qed.
Definition bind_rows := [O "element_address" 0 2 Num; R false 2 2 12 4; B "app_key_index" false 2 2 0 12 Num; T "model" 4 (Own config_ModelId)].
Lemma bind_row : In ("CONFIG_MODEL_APP_BIND"%string, 0x803D, [(""%string, bind_rows)]) documented.
Proof. apply (nth_error_In _ 30). vm_compute. reflexivity. Qed.
Lemma bind_opcode : opcode_bytes 0x803D [0x80; 0x3D].
Proof. apply (ob2 0x80 0x3D); lia. Qed.
(** model 0x1000 of the element 0x1234 is bound to key 5; a group address is no element address *)
Example C60_ex_accepted : Forall (acceptable ["config_model_app_bind"%string] [0x34; 0x12; 0x05; 0x00; 0x00; 0x10]) bind_rows /\
  exists v, access_parse [0x80; 0x3D; 0x34; 0x12; 0x05; 0x00; 0x00; 0x10] = Ok v.
Proof.
  assert (F : Forall (acceptable ["config_model_app_bind"%string] [0x34; 0x12; 0x05; 0x00; 0x00; 0x10]) bind_rows).
  { unfold bind_rows. apply Forall_cons; [|apply Forall_cons; [|apply Forall_cons; [|apply Forall_cons; [|apply Forall_nil]]]]; cbn [acceptable].
    - split; [cbn; lia|]. apply allowedb_ok. vm_compute. reflexivity.
    - cbn; lia.
    - split; [cbn; lia|]. apply allowedb_ok. vm_compute. reflexivity.
    - eexists _, _. vm_compute. reflexivity. }
  split; [exact F|]. change [0x80; 0x3D; 0x34; 0x12; 0x05; 0x00; 0x00; 0x10] with ([0x80; 0x3D] ++ [0x34; 0x12; 0x05; 0x00; 0x00; 0x10]).
  apply (C60_accepted _ _ _ ""%string bind_rows _ _ bind_row (or_introl eq_refl) bind_opcode); [|exact F].
  repeat apply Forall_cons; try apply Forall_nil; unfold isbyte; lia.
Qed.
Example C60_ex_refused : ~ exists v, access_parse [0x80; 0x3D; 0x00; 0xC0; 0x05; 0x00; 0x00; 0x10] = Ok v.
Proof.
  intros [v H]. change [0x80; 0x3D; 0x00; 0xC0; 0x05; 0x00; 0x00; 0x10] with ([0x80; 0x3D] ++ [0x00; 0xC0; 0x05; 0x00; 0x00; 0x10]) in H.
  assert (B : bytes [0x00; 0xC0; 0x05; 0x00; 0x00; 0x10]) by (repeat apply Forall_cons; try apply Forall_nil; unfold isbyte; lia).
  pose proof (C60_received _ _ _ _ [0x00; 0xC0; 0x05; 0x00; 0x00; 0x10] v bind_row bind_opcode B H) as (f & rows & Hr & F). clear H. destruct Hr as [Hr | []]. injection Hr as <- <-.
  apply Forall_inv in F. destruct F as [_ A]. change [lower "CONFIG_MODEL_APP_BIND"] with ["config_model_app_bind"%string] in A. apply allowedb_ok in A. vm_compute in A. discriminate A.
Qed.
Example C60_ex_sent : exists s, access_build (VDict [("opcode"%string, VInt 0x803D); ("config_model_app_bind"%string, VDict
  [("element_address"%string, VInt 0x1234); ("app_key_index"%string, VInt 5); ("model"%string, VDict [("model_id"%string, VInt 0x1000)])])]) = Ok s.
Proof.
  eapply (C60_sent "CONFIG_MODEL_APP_BIND"%string 0x803D _ _ (VInt 0x803D) _ ""%string bind_rows _ bind_row); [reflexivity | reflexivity | reflexivity | now left | reflexivity |].
  unfold bind_rows. apply Forall_cons; [|apply Forall_cons; [|apply Forall_cons; [|apply Forall_cons; [|apply Forall_nil]]]]; cbn [sendable].
  - eexists. split; [reflexivity|]. split; [discriminate|]. eexists. split; [reflexivity|]. split; [cbn; lia|]. apply allowedb_ok. vm_compute. reflexivity.
  - exact Logic.I.
  - eexists. split; [reflexivity|]. split; [discriminate|]. eexists. split; [reflexivity|]. split; [cbn; lia|]. apply allowedb_ok. vm_compute. reflexivity.
  - eexists. split; [reflexivity|]. split; [discriminate|]. eexists. vm_compute. reflexivity.
Qed.
(** a hop count of 128 is not sent *)
Example C60_ex_not_sent : allowed ["config_default_ttl_set"; "ttl"]%string 127 /\ ~ allowed ["config_default_ttl_set"; "ttl"]%string 128 /\
  access_build (VDict [("opcode"%string, VInt 0x800D); ("config_default_ttl_set"%string, VDict [("ttl"%string, VInt 127)])]) = Ok [0x80; 0x0D; 127] /\
  exists e, access_build (VDict [("opcode"%string, VInt 0x800D); ("config_default_ttl_set"%string, VDict [("ttl"%string, VInt 128)])]) = Err e.
Proof.
  split; [apply allowedb_ok; vm_compute; reflexivity|]. split; [intros A; apply allowedb_ok in A; vm_compute in A; discriminate A|].
  split; [vm_compute; reflexivity | eexists; vm_compute; reflexivity].
Qed.
Print Assumptions C60_accepted.
Print Assumptions C60_received.
Print Assumptions C60_sent.
Print Assumptions C60_built.
Print Assumptions C60_sub_accepted.
Print Assumptions C60_sub_received.
Print Assumptions C60_sub_sent.
Print Assumptions C60_sub_built.

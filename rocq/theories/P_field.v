(** * P_field: retransmit, set, MAC, IP and date fields (C26-C31). *)
From Coq Require Import Permutation Sorted.
From Verif Require Import PyVal Bits Float64 FloatX Utf8 Adapters Construct Size Spec Master
  AdapterSpec AdapterProofs1 AdapterProofs2 AdapterProofs3 AdapterProofs4 Access AccessProofs BitLayout Uses P_int P_scale P_transition
  G_config G_rrule.

(** ** C26: transmit count and interval, one octet: steps in the upper five bits, count below *)
Definition Retransmit (iv : Z) : con := CAdapt (ARetransmit iv) config_Retransmit.
Theorem C26_all_fields : forall iv w, In (ARetransmit iv, w) all_uses -> CAdapt (ARetransmit iv) w = Retransmit iv /\ (iv = 10 \/ iv = 50).
Proof.
  intros iv w H.
  assert (C : forallb (fun p => match fst p with ARetransmit iv => con_eqb (snd p) config_Retransmit && ((iv =? 10) || (iv =? 50)) | _ => true end) all_uses = true) by (vm_compute; reflexivity).
  apply (proj1 (forallb_forall _ all_uses)) with (x := (ARetransmit iv, w)) in C; [|exact H]. cbn [fst snd] in C.
  apply andb_prop in C as [C1 C2]. apply con_eqb_spec in C1. apply orb_prop in C2. rewrite !Z.eqb_eq in C2. subst. auto.
Qed.
Print Assumptions C26_all_fields.
Lemma build_retransmit ctx c n s : as_int c = Some n -> 0 <= n < 8 -> 0 <= s < 32 ->
  build config_Retransmit ctx (VDict [("count"%string, c); ("interval_steps"%string, VInt s)]) = Ok [8 * s + n].
Proof.
  intros Hc Hn Hs. unfold config_Retransmit.
  change (build (CBitwise ?c) ctx ?v) with (let* bs := build c ctx v in match bits2bytes bs with (l, []) => Ok l | _ => Err EOther end).
  change (build (CStruct ?f) ctx (VDict ?d)) with (build_fields f d d).
  cbn [build_fields]. unfold dgetr. cbn [dget String.eqb Ascii.eqb Bool.eqb bind].
  assert (B : forall k c v z, as_int v = Some z -> 0 <= z -> build (CBits k false) c v = Ok (to_bits k z)).
  { intros k c0 v z Hv Hz. cbn [build]. unfold as_intr. rewrite Hv. cbn [bind]. destruct (Z.ltb_spec z 0); [lia|reflexivity]. }
  rewrite (B 5%nat _ (VInt s) s eq_refl) by lia. cbn [bind]. rewrite (B 3%nat _ c n Hc) by lia. cbn [bind].
  rewrite app_nil_r, to_bits_app by (simpl; lia). change (5 + 3)%nat with (8 * 1)%nat.
  rewrite bits2bytes_to_bits. cbn [to_le rev app]. change (2 ^ Z.of_nat 3) with 8. rewrite Z.mod_small by lia. do 2 f_equal. lia.
Qed.
Theorem C26_build : forall iv d c n i s, 0 < iv -> dget "count" d = Some c -> as_int c = Some n -> 0 <= n <= 7 ->
  dget "interval" d = Some i -> as_int i = Some ((s + 1) * iv) -> 0 <= s <= 31 ->
  build_msg (Retransmit iv) (VDict d) = Ok [8 * s + n].
Proof.
  intros iv d c n i s Hiv Hc Hn Hn7 Hi Hs Hs31. unfold build_msg, Retransmit. rewrite build_adapt. cbn [encode]. unfold retransmit_encode, dgetr.
  rewrite Hc. cbn [bind]. unfold as_intr. rewrite Hn. cbn [bind]. destruct (Z.ltb_spec 7 n); [lia|]. rewrite Hi. cbn [bind].
  rewrite (int_key_as_int i _ Hs).
  destruct (Z.ltb_spec 0 ((s + 1) * iv)); [|nia]. destruct (Z.leb_spec ((s + 1) * iv) (32 * iv)); [|nia].
  rewrite Z.mod_mul by lia. cbn [Z.eqb andb bind]. rewrite Z.div_mul by lia. replace (s + 1 - 1) with s by lia.
  apply build_retransmit; [exact Hn|lia|lia].
Qed.
Print Assumptions C26_build.
Theorem C26_parse : forall iv b, isbyte b ->
  parse_msg (Retransmit iv) [b] = Ok (VDict [("count"%string, VInt (b mod 8)); ("interval"%string, VInt ((b / 8 + 1) * iv))]).
Proof.
  intros iv b Hb. unfold parse_msg, Retransmit. rewrite parse_adapt. unfold config_Retransmit.
  match goal with |- context [parse (CBitwise ?c) ?ctx ?s] => change (parse (CBitwise c) ctx s) with
    (let* q := parse c ctx (bytes2bits s) in let (v, r) := (q : val * list Z) in match bits2bytes r with (r', []) => Ok (v, r') | _ => Err EOther end) end.
  assert (E : bytes2bits [b] = to_bits 5 (b / 8) ++ to_bits 3 b ++ []).
  { unfold bytes2bits. cbn [flat_map]. change 8%nat with (5 + 3)%nat. rewrite to_bits_split, !app_nil_r. reflexivity. }
  rewrite E. change (parse (CStruct ?f) ?ctx ?s) with (let* q := parse_fields f [] s in let (d, r) := (q : dict * list Z) in Ok (VDict d, r)).
  unfold isbyte in Hb. cbn [parse_fields parse].
  rewrite (take_app' 5) by apply to_bits_length. cbn [bind]. rewrite (take_app' 3) by apply to_bits_length. cbn [bind bits2bytes].
  rewrite !of_to_bits. change (2 ^ Z.of_nat 5) with 32. change (2 ^ Z.of_nat 3) with 8.
  rewrite (Z.mod_small (b / 8)) by (split; [apply Z.div_pos; lia|apply Z.div_lt_upper_bound; lia]). reflexivity.
Qed.
Print Assumptions C26_parse.
(** anything else is rejected *)
Theorem C26_reject : forall iv d c n i z, 0 < iv -> dget "count" d = Some c -> as_int c = Some n ->
  dget "interval" d = Some i -> as_int i = Some z ->
  ~ (0 <= n <= 7 /\ exists s, 0 <= s <= 31 /\ z = (s + 1) * iv) -> exists e, build_msg (Retransmit iv) (VDict d) = Err e.
Proof.
  intros iv d c n i z Hiv Hc Hn Hi Hz H. unfold build_msg, Retransmit. rewrite build_adapt. cbn [encode]. unfold retransmit_encode, dgetr.
  rewrite Hc. cbn [bind]. unfold as_intr. rewrite Hn. cbn [bind]. destruct (Z.ltb_spec 7 n); [cbn [bind]; eauto|]. rewrite Hi. cbn [bind].
  rewrite (int_key_as_int i _ Hz). destruct (_ && _) eqn:E; cbn [bind]; [|eauto].
  apply andb_prop in E as [E E3]. apply andb_prop in E as [E1 E2]. apply Z.ltb_lt in E1. apply Z.leb_le in E2. apply Z.eqb_eq in E3.
  assert (Hs : exists s, 0 <= s <= 31 /\ z = (s + 1) * iv).
  { exists (z / iv - 1). pose proof (Z.div_mod z iv ltac:(lia)). assert (1 <= z / iv <= 32) by (split; nia). split; [lia|nia]. }
  destruct (Z.lt_ge_cases n 0) as [Hneg|]; [|exfalso; apply H; split; [lia|exact Hs]].
  unfold config_Retransmit.
  change (build (CBitwise ?c) ?ctx ?v) with (let* bs := build c ctx v in match bits2bytes bs with (l, []) => Ok l | _ => Err EOther end).
  change (build (CStruct ?f) ?ctx (VDict ?d)) with (build_fields f d d).
  cbn [build_fields]. unfold dgetr. cbn [dget String.eqb Ascii.eqb Bool.eqb bind].
  destruct Hs as (s & Hs & ->). rewrite Z.div_mul by lia. cbn [build]. unfold as_intr. cbn [as_int bind]. rewrite Hn. cbn [bind].
  destruct (Z.ltb_spec (s + 1 - 1) 0); [lia|]. cbn [andb bind]. destruct (Z.ltb_spec n 0); [|lia]. cbn [andb negb bind]. eauto.
Qed.
Print Assumptions C26_reject.
Example C26_ex : build_msg (Retransmit 50) (VDict [("interval"%string, VInt 150); ("count"%string, VInt 5)]) = Ok [21]
  /\ parse_msg (Retransmit 50) [21] = Ok (VDict [("count"%string, VInt 5); ("interval"%string, VInt 150)]).
Proof. split; vm_compute; reflexivity. Qed.

(** ** C27: feature sets; element i is bit 7-i of the first octet (i < 8), bit 15-i of the second *)
Definition BitSet : con := CAdapt (ABitList 2 false) (CBitwise (CArray (EConst 16) (CBits 1 false))).
Theorem C27_all_fields : forall n r w, In (ABitList n r, w) all_uses -> CAdapt (ABitList n r) w = BitSet.
Proof.
  intros n r w H.
  assert (C : forallb (fun p => match fst p with ABitList n r => con_eqb (snd p) (CBitwise (CArray (EConst 16) (CBits 1 false))) && Nat.eqb n 2 && negb r | _ => true end) all_uses = true) by (vm_compute; reflexivity).
  apply (proj1 (forallb_forall _ all_uses)) with (x := (ABitList n r, w)) in C; [|exact H]. cbn [fst snd] in C.
  apply andb_prop in C as [C C3]. apply andb_prop in C as [C1 C2]. apply con_eqb_spec in C1. apply Nat.eqb_eq in C2. apply negb_true_iff in C3. now subst.
Qed.
Print Assumptions C27_all_fields.
Definition elem (i : Z) (l : list val) : Prop := exists x, In x l /\ as_int x = Some i.
Definition all_ints (l : list val) : Prop := Forall (fun x => exists z, as_int x = Some z) l.
Definition bit_of (a b i : Z) : bool := if i <? 8 then Z.testbit a (7 - i) else Z.testbit b (15 - i).

Lemma elem_dec i l : all_ints l -> existsb (num_is i) l = true <-> elem i l.
Proof.
  intros Hl. rewrite existsb_exists. split.
  - intros (x & Hx & E). unfold all_ints in Hl. rewrite Forall_forall in Hl. destruct (Hl x Hx) as (z & Hz). exists x. split; [exact Hx|].
    unfold num_is in E. rewrite (int_key_as_int x _ Hz) in E. apply Z.eqb_eq in E. now subst.
  - intros (x & Hx & E). exists x. split; [exact Hx|]. unfold num_is. rewrite (int_key_as_int x _ E). apply Z.eqb_refl.
Qed.
Definition octet (b0 b1 b2 b3 b4 b5 b6 b7 : bool) : Z := of_bits (map (fun b : bool => if b then 1 else 0) [b0; b1; b2; b3; b4; b5; b6; b7]).
Lemma octet_bits b0 b1 b2 b3 b4 b5 b6 b7 : let o := octet b0 b1 b2 b3 b4 b5 b6 b7 in
  isbyte o /\ Z.testbit o 7 = b0 /\ Z.testbit o 6 = b1 /\ Z.testbit o 5 = b2 /\ Z.testbit o 4 = b3
  /\ Z.testbit o 3 = b4 /\ Z.testbit o 2 = b5 /\ Z.testbit o 1 = b6 /\ Z.testbit o 0 = b7.
Proof. destruct b0, b1, b2, b3, b4, b5, b6, b7; vm_compute; repeat split; congruence. Qed.
Theorem C27_build : forall v l, iter v = Some l -> (forall s, v <> VStr s) -> all_ints l ->
  exists a b, build_msg BitSet v = Ok [a; b] /\ isbyte a /\ isbyte b
    /\ forall i, 0 <= i < 16 -> (bit_of a b i = true <-> elem i l).
Proof.
  intros v l Hv Hs Hl. unfold build_msg, BitSet. rewrite build_adapt. cbn [encode].
  assert (E : bitlist_encode 2 false v = Ok (VList (map (fun i => VBool (existsb (num_is (Z.of_nat i)) l)) (seq 0 16)))).
  { unfold bitlist_encode. rewrite Hv. destruct v; try reflexivity. now destruct (Hs s). }
  rewrite E. clear E. cbn [bind map seq].
  set (f := fun i => existsb (num_is (Z.of_nat i)) l).
  assert (B : forall c0 c1 c2 c3 c4 c5 c6 c7 c8 c9 c10 c11 c12 c13 c14 c15 : bool,
    build (CBitwise (CArray (EConst 16) (CBits 1 false))) [] (VList (map VBool [c0; c1; c2; c3; c4; c5; c6; c7; c8; c9; c10; c11; c12; c13; c14; c15]))
    = Ok [octet c0 c1 c2 c3 c4 c5 c6 c7; octet c8 c9 c10 c11 c12 c13 c14 c15]).
  { intros.
    assert (Bit : forall c : bool, build (CBits 1 false) [] (VBool c) = Ok [if c then 1 else 0]) by (intros []; reflexivity).
    change (build (CBitwise ?c) ?ctx ?v) with (let* bs := build c ctx v in match bits2bytes bs with (l, []) => Ok l | _ => Err EOther end).
    change (build (CArray (EConst 16) ?c) ?ctx (VList ?l)) with (if (0 <=? 16) && (Z.of_nat (length l) =? 16) then build_list (build c ctx) l else Err EOther).
    cbn [map length]. change ((0 <=? 16) && (Z.of_nat 16 =? 16)) with true. cbv iota. cbn [build_list]. rewrite !Bit. cbn [bind app]. reflexivity. }
  exists (octet (f 0%nat) (f 1%nat) (f 2%nat) (f 3%nat) (f 4%nat) (f 5%nat) (f 6%nat) (f 7%nat)),
         (octet (f 8%nat) (f 9%nat) (f 10%nat) (f 11%nat) (f 12%nat) (f 13%nat) (f 14%nat) (f 15%nat)).
  split; [exact (B (f 0%nat) (f 1%nat) (f 2%nat) (f 3%nat) (f 4%nat) (f 5%nat) (f 6%nat) (f 7%nat) (f 8%nat) (f 9%nat) (f 10%nat) (f 11%nat) (f 12%nat) (f 13%nat) (f 14%nat) (f 15%nat))|].
  clear B. destruct (octet_bits (f 0%nat) (f 1%nat) (f 2%nat) (f 3%nat) (f 4%nat) (f 5%nat) (f 6%nat) (f 7%nat)) as (O1 & A0 & A1 & A2 & A3 & A4 & A5 & A6 & A7).
  destruct (octet_bits (f 8%nat) (f 9%nat) (f 10%nat) (f 11%nat) (f 12%nat) (f 13%nat) (f 14%nat) (f 15%nat)) as (O2 & B0 & B1 & B2 & B3 & B4 & B5 & B6 & B7).
  set (a := octet _ _ _ _ _ _ _ (f 7%nat)) in *. set (b := octet _ _ _ _ _ _ _ (f 15%nat)) in *.
  split; [exact O1|]. split; [exact O2|]. intros i Hi. rewrite <- (elem_dec i l Hl).
  assert (Hc : bit_of a b i = f (Z.to_nat i)).
  { assert (In i (upto 16)) as Hin by (apply in_upto; simpl; lia). change (upto 16) with [0;1;2;3;4;5;6;7;8;9;10;11;12;13;14;15] in Hin.
    cbn [In] in Hin. repeat destruct Hin as [<-|Hin]; try contradiction; assumption. }
  rewrite Hc. unfold f. rewrite Z2Nat.id by lia. reflexivity.
Qed.
Print Assumptions C27_build.
(** the same set in another order, with repetitions or as another kind of iterable: the same bytes *)
Theorem C27_same_set : forall v1 l1 v2 l2, iter v1 = Some l1 -> iter v2 = Some l2 -> (forall s, v1 <> VStr s) -> (forall s, v2 <> VStr s) ->
  all_ints l1 -> all_ints l2 -> (forall i, 0 <= i < 16 -> elem i l1 <-> elem i l2) -> build_msg BitSet v1 = build_msg BitSet v2.
Proof.
  intros v1 l1 v2 l2 H1 H2 S1 S2 A1 A2 H. unfold build_msg, BitSet. rewrite !build_adapt. cbn [encode].
  assert (E : forall v l, iter v = Some l -> (forall s, v <> VStr s) -> bitlist_encode 2 false v = Ok (VList (map (fun i => VBool (existsb (num_is (Z.of_nat i)) l)) (seq 0 16)))).
  { intros v l Hv Hs. unfold bitlist_encode. rewrite Hv. destruct v; try reflexivity. now destruct (Hs s). }
  rewrite (E v1 l1 H1 S1), (E v2 l2 H2 S2). cbn [bind]. do 2 f_equal. apply map_ext_in. intros i Hi. apply in_seq in Hi. f_equal.
  apply eq_true_iff_eq. rewrite !elem_dec by assumption. apply H. lia.
Qed.
Print Assumptions C27_same_set.
(** two octets read as the sorted set of their bits *)
Theorem C27_parse : forall a b, isbyte a -> isbyte b -> exists zs, parse_msg BitSet [a; b] = Ok (VSet (map VInt zs))
  /\ StronglySorted Z.lt zs /\ forall i, In i zs <-> 0 <= i < 16 /\ bit_of a b i = true.
Proof.
  intros a b Ha Hb.
  assert (D : forall z, isbyte z -> exists c0 c1 c2 c3 c4 c5 c6 c7 : bool, z = octet c0 c1 c2 c3 c4 c5 c6 c7).
  { intros z Hz. unfold isbyte in Hz. exists (Z.testbit z 7), (Z.testbit z 6), (Z.testbit z 5), (Z.testbit z 4), (Z.testbit z 3), (Z.testbit z 2), (Z.testbit z 1), (Z.testbit z 0).
    assert (Hi : 0 <= z < Z.of_nat 256) by lia.
    assert (C : forallb (fun z => z =? octet (Z.testbit z 7) (Z.testbit z 6) (Z.testbit z 5) (Z.testbit z 4) (Z.testbit z 3) (Z.testbit z 2) (Z.testbit z 1) (Z.testbit z 0)) (upto 256) = true) by (vm_compute; reflexivity).
    apply Z.eqb_eq. exact (forallb_upto _ _ C z Hi). }
  destruct (D a Ha) as (a0 & a1 & a2 & a3 & a4 & a5 & a6 & a7 & Ea). destruct (D b Hb) as (b0 & b1 & b2 & b3 & b4 & b5 & b6 & b7 & Eb). clear D.
  destruct (octet_bits a0 a1 a2 a3 a4 a5 a6 a7) as (_ & A0 & A1 & A2 & A3 & A4 & A5 & A6 & A7). rewrite <- Ea in *.
  destruct (octet_bits b0 b1 b2 b3 b4 b5 b6 b7) as (_ & B0 & B1 & B2 & B3 & B4 & B5 & B6 & B7). rewrite <- Eb in *.
  set (bs := [a0; a1; a2; a3; a4; a5; a6; a7; b0; b1; b2; b3; b4; b5; b6; b7]).
  exists (true_bits 0 bs). split; [|split; [apply true_bits_sorted|]].
  - unfold parse_msg, BitSet. rewrite parse_adapt.
    match goal with |- context [parse (CBitwise ?c) ?ctx ?s] => change (parse (CBitwise c) ctx s) with
      (let* q := parse c ctx (bytes2bits s) in let (v, r) := (q : val * list Z) in match bits2bytes r with (r', []) => Ok (v, r') | _ => Err EOther end) end.
    assert (O : forall c0 c1 c2 c3 c4 c5 c6 c7 : bool, to_bits 8 (octet c0 c1 c2 c3 c4 c5 c6 c7) = map (fun b : bool => if b then 1 else 0) [c0; c1; c2; c3; c4; c5; c6; c7]).
    { intros c0 c1 c2 c3 c4 c5 c6 c7. destruct c0, c1, c2, c3, c4, c5, c6, c7; vm_compute; reflexivity. }
    assert (E : bytes2bits [a; b] = map (fun b : bool => if b then 1 else 0) bs).
    { unfold bytes2bits. cbn [flat_map]. rewrite Ea, Eb, !O. reflexivity. }
    rewrite E. subst bs. cbn [map].
    change (parse (CArray (EConst 16) ?c) ?ctx ?s) with (let* q := times_parse (parse c ctx) 16 s in let (l, r) := (q : list val * list Z) in Ok (VList l, r)).
    assert (P : forall (c : bool) r, parse (CBits 1 false) [] ((if c then 1 else 0) :: r) = Ok (VInt (if c then 1 else 0), r)) by (intros [] r; reflexivity).
    cbn [times_parse]. repeat (rewrite P; cbn [bind]). cbn [bits2bytes bind decode bitlist_decode].
    exact (f_equal (fun l => Ok (VSet l)) (set_bits_true [a0; a1; a2; a3; a4; a5; a6; a7; b0; b1; b2; b3; b4; b5; b6; b7] 0)).
  - intros i. rewrite true_bits_in.
    assert (N : forall j, (j < 16)%nat -> bit_of a b (Z.of_nat j) = nth j bs false).
    { intros j Hj. do 16 (destruct j as [|j]; [assumption|]). lia. }
    split.
    + intros (j & -> & Hj). assert (Hj16 : (j < 16)%nat). { destruct (Nat.lt_ge_cases j 16) as [|Hg]; [assumption|]. rewrite nth_overflow in Hj; [discriminate|exact Hg]. }
      rewrite Nat.add_0_l, (N j Hj16). split; [lia|exact Hj].
    + intros [Hi Hb']. exists (Z.to_nat i). rewrite Nat.add_0_l, Z2Nat.id by lia. split; [reflexivity|]. rewrite <- N by lia. now rewrite Z2Nat.id by lia.
Qed.
Print Assumptions C27_parse.
(** so a set comes back as its elements below 16 *)
Theorem C27_round_trip : forall v l, iter v = Some l -> (forall s, v <> VStr s) -> all_ints l ->
  exists s zs, build_msg BitSet v = Ok s /\ parse_msg BitSet s = Ok (VSet (map VInt zs)) /\ StronglySorted Z.lt zs
    /\ forall i, In i zs <-> 0 <= i < 16 /\ elem i l.
Proof.
  intros v l Hv Hs Hl. destruct (C27_build v l Hv Hs Hl) as (a & b & Hb & Ha1 & Hb1 & Hi).
  destruct (C27_parse a b Ha1 Hb1) as (zs & Hp & Hsort & Hin). exists [a; b], zs. split; [exact Hb|]. split; [exact Hp|]. split; [exact Hsort|].
  intros i. rewrite Hin. split; intros [H1 H2]; (split; [exact H1|]); now apply Hi.
Qed.
Print Assumptions C27_round_trip.
Example C27_ex : build_msg BitSet (VList [VInt 9; VInt 1; VInt 9; VInt 20]) = Ok [64; 64]
  /\ parse_msg BitSet [64; 64] = Ok (VSet [VInt 1; VInt 9]).
Proof. split; vm_compute; reflexivity. Qed.

(** the general [BitList(size, reversed=...)] (util.py:97-98), any size and either order: element i is bit 7 - p mod 8 of octet
    p / 8, where p = i, or 8 size - 1 - i when reversed *)
Definition BitListOf (n : nat) (rv : bool) : con := CAdapt (ABitList n rv) (CBitwise (CArray (EConst (8 * Z.of_nat n)) (CBits 1 false))).
Definition bit_at (s : list Z) (p : Z) : bool := Z.testbit (nth (Z.to_nat (p / 8)) s 0) (7 - p mod 8).
Definition place (n : nat) (rv : bool) (i : Z) : Z := if rv then 8 * Z.of_nat n - 1 - i else i.
Local Notation b2z := (fun b : bool => if b then 1 else 0).
Lemma byte_bits_nth z : isbyte z -> forall j, 0 <= j < 8 -> nth (Z.to_nat j) (to_bits 8 z) 0 = b2z (Z.testbit z (7 - j)).
Proof.
  intros Hz j Hj.
  assert (C : forallb (fun z => forallb (fun j => nth (Z.to_nat j) (to_bits 8 z) 0 =? b2z (Z.testbit z (7 - j))) (upto 8)) (upto 256) = true) by (vm_compute; reflexivity).
  assert (Hz' : 0 <= z < Z.of_nat 256) by (unfold isbyte in Hz; lia). pose proof (forallb_upto _ _ C z Hz') as C'. cbv beta in C'.
  apply Z.eqb_eq. exact (forallb_upto _ _ C' j ltac:(lia)).
Qed.
Lemma bytes_bits_nth s : bytes s -> forall p, 0 <= p < 8 * Z.of_nat (length s) -> nth (Z.to_nat p) (bytes2bits s) 0 = b2z (bit_at s p).
Proof.
  induction 1 as [|z s Hz Hs IH]; intros p Hp; [cbn [length] in Hp; lia|]. cbn [length] in Hp. unfold bytes2bits in *. cbn [flat_map].
  unfold bit_at. destruct (Z.lt_ge_cases p 8) as [H|H].
  - rewrite app_nth1 by (rewrite to_bits_length; lia). rewrite Z.div_small, Z.mod_small by lia. apply byte_bits_nth; [exact Hz|lia].
  - rewrite app_nth2 by (rewrite to_bits_length; lia). rewrite to_bits_length.
    replace (Z.to_nat p - 8)%nat with (Z.to_nat (p - 8)) by lia. rewrite IH by lia. unfold bit_at.
    assert (E : p / 8 = (p - 8) / 8 + 1) by (replace p with (p - 8 + 1 * 8) at 1 by lia; rewrite Z.div_add by lia; reflexivity).
    assert (E2 : p mod 8 = (p - 8) mod 8) by (replace p with (p - 8 + 1 * 8) at 1 by lia; rewrite Z.mod_add by lia; reflexivity).
    rewrite E, E2. pose proof (Z.div_pos (p - 8) 8 ltac:(lia) ltac:(lia)). rewrite Z2Nat.inj_add by lia. rewrite Nat.add_1_r. reflexivity.
Qed.
Theorem C27_any_size : forall n rv v l, iter v = Some l -> (forall s, v <> VStr s) -> all_ints l ->
  exists s zs, build_msg (BitListOf n rv) v = Ok s /\ bytes s /\ length s = n
    /\ (forall i, 0 <= i < 8 * Z.of_nat n -> (bit_at s (place n rv i) = true <-> elem i l))
    /\ parse_msg (BitListOf n rv) s = Ok (VSet (map VInt zs)) /\ StronglySorted Z.lt zs
    /\ forall i, In i zs <-> 0 <= i < 8 * Z.of_nat n /\ elem i l.
Proof.
  intros n rv v l Hv Hs Hl.
  set (f := fun i => existsb (num_is (Z.of_nat i)) l). set (bs := map f (seq 0 (8 * n))).
  assert (Lb : length bs = (8 * n)%nat) by (unfold bs; now rewrite map_length, seq_length).
  assert (Nb : forall i, (i < 8 * n)%nat -> nth i bs false = f i).
  { intros i Hi. unfold bs. rewrite (nth_indep _ _ (f 0%nat)) by (rewrite map_length, seq_length; exact Hi). now rewrite (map_nth f), seq_nth by exact Hi. }
  set (cs := if rv then rev bs else bs).
  assert (Lc : length cs = (8 * n)%nat) by (unfold cs; destruct rv; rewrite ?rev_length; exact Lb).
  assert (E : bitlist_encode n rv v = Ok (VList (map VBool cs))).
  { unfold bitlist_encode. rewrite Hv. assert (X : map (fun i => VBool (existsb (num_is (Z.of_nat i)) l)) (seq 0 (8 * n)) = map VBool bs) by (unfold bs; now rewrite map_map).
    unfold cs. destruct v; try (exfalso; now apply (Hs s)); try discriminate; cbv zeta; rewrite X; destruct rv; rewrite <- ?map_rev; reflexivity. }
  assert (BL : forall l, build_list (build (CBits 1 false) []) (map VBool l) = Ok (map b2z l)).
  { induction l0 as [|c l0 IH]; [reflexivity|]. cbn [map build_list]. rewrite IH. destruct c; reflexivity. }
  assert (PL : forall l r, times_parse (parse (CBits 1 false) []) (length l) (map b2z l ++ r) = Ok (map (fun b : bool => VInt (if b then 1 else 0)) l, r)).
  { induction l0 as [|c l0 IH]; intros r; [reflexivity|]. cbn [map length times_parse app].
    assert (P : forall (c : bool) r, parse (CBits 1 false) [] ((if c then 1 else 0) :: r) = Ok (VInt (if c then 1 else 0), r)) by (intros [] ?; reflexivity).
    rewrite P. cbn [bind]. rewrite IH. reflexivity. }
  assert (U : bits (map b2z cs)) by (apply Forall_forall; intros x Hx; apply in_map_iff in Hx as ([] & <- & _); [now right|now left]).
  destruct (bits2bytes (map b2z cs)) as [s lo] eqn:Eb. destruct (bits2bytes_spec _ U _ _ Eb) as (Es & Hbytes & Hlo).
  assert (LL : (8 * length s + length lo = 8 * n)%nat) by (pose proof (f_equal (@length Z) Es) as L; rewrite map_length, app_length, bytes2bits_length, Lc in L; lia).
  assert (lo = []) as -> by (destruct lo; [reflexivity|exfalso; cbn [length] in *; lia]). rewrite app_nil_r in Es. cbn [length] in LL.
  exists s, (true_bits 0 bs). split; [|split; [exact Hbytes|split; [lia|split; [|split; [|split; [apply true_bits_sorted|]]]]]].
  - unfold build_msg, BitListOf. rewrite build_adapt. cbn [encode]. rewrite E. cbn [bind].
    change (build (CBitwise ?c) ?ctx ?v) with (let* bs := build c ctx v in match bits2bytes bs with (l, []) => Ok l | _ => Err EOther end).
    cbn [build eval bind iter]. rewrite map_length, Lc.
    replace ((0 <=? 8 * Z.of_nat n) && (Z.of_nat (8 * n) =? 8 * Z.of_nat n)) with true by (symmetry; apply andb_true_intro; split; [apply Z.leb_le|apply Z.eqb_eq]; lia).
    change (fun v : val => let* z := as_intr v in if (z <? 0) && negb false then Err EOther else Ok (to_bits 1 z)) with (build (CBits 1 false) []).
    rewrite BL. cbn [bind]. now rewrite Eb.
  - intros i Hi. rewrite <- (elem_dec i l Hl).
    assert (X : bit_at s (place n rv i) = f (Z.to_nat i)).
    { assert (Hp : 0 <= place n rv i < 8 * Z.of_nat n) by (unfold place; destruct rv; lia).
      pose proof (bytes_bits_nth s Hbytes (place n rv i) ltac:(lia)) as N. rewrite <- Es in N.
      pose proof (map_nth b2z cs false (Z.to_nat (place n rv i))) as N0. cbv beta iota in N0. rewrite N0 in N. clear N0.
      assert (Y : nth (Z.to_nat (place n rv i)) cs false = f (Z.to_nat i)).
      { rewrite <- Nb by lia. unfold cs, place. destruct rv; [|reflexivity]. rewrite rev_nth by lia. f_equal. lia. }
      rewrite Y in N. destruct (bit_at s _), (f _); congruence. }
    rewrite X. unfold f. rewrite Z2Nat.id by lia. reflexivity.
  - unfold parse_msg, BitListOf. rewrite parse_adapt.
    match goal with |- context [parse (CBitwise ?c) ?ctx ?s] => change (parse (CBitwise c) ctx s) with
      (let* q := parse c ctx (bytes2bits s) in let (v, r) := (q : val * list Z) in match bits2bytes r with (r', []) => Ok (v, r') | _ => Err EOther end) end.
    rewrite <- Es. cbn [parse eval bind]. destruct (Z.ltb_spec (8 * Z.of_nat n) 0); [lia|]. replace (Z.to_nat (8 * Z.of_nat n)) with (length cs) by lia.
    match goal with |- context [times_parse ?p _ _] => change p with (parse (CBits 1 false) []) end.
    pose proof (PL cs []) as P. rewrite app_nil_r in P. rewrite P. cbn [bind bits2bytes decode bitlist_decode].
    assert (R : (if rv then rev (map (fun b : bool => VInt (if b then 1 else 0)) cs) else map (fun b : bool => VInt (if b then 1 else 0)) cs) = map (fun b : bool => VInt (if b then 1 else 0)) bs).
    { unfold cs. destruct rv; [|reflexivity]. now rewrite <- map_rev, rev_involutive. }
    rewrite R. exact (f_equal (fun l => Ok (VSet l)) (set_bits_true bs 0)).
  - intros i. rewrite true_bits_in. split.
    + intros (j & -> & Hj). assert (Hj16 : (j < 8 * n)%nat). { destruct (Nat.lt_ge_cases j (8 * n)) as [|Hg]; [assumption|]. rewrite nth_overflow in Hj; [discriminate|lia]. }
      rewrite Nat.add_0_l. split; [lia|]. rewrite <- (elem_dec _ l Hl). rewrite Nb in Hj by exact Hj16. exact Hj.
    + intros [Hi He]. exists (Z.to_nat i). rewrite Nat.add_0_l, Z2Nat.id by lia. split; [reflexivity|]. rewrite Nb by lia. unfold f. rewrite Z2Nat.id by lia. now apply elem_dec.
Qed.
Print Assumptions C27_any_size.
Example C27_reversed_ex : build_msg (BitListOf 2 true) (VSet [VInt 0; VInt 10]) = Ok [4; 1]
  /\ parse_msg (BitListOf 2 true) [4; 1] = Ok (VSet [VInt 0; VInt 10]).
Proof. split; vm_compute; reflexivity. Qed.

(** ** C28: set-valued lists, one octet per element *)
Definition EntryIds : con := CAdapt ASet (CGreedyRange Int8ul).
Definition RuleIds : con := CAdapt ASet (CGreedyRange rrule_RuleID).
Theorem C28_all_fields : forall w, In (ASet, w) all_uses -> CAdapt ASet w = EntryIds \/ CAdapt ASet w = RuleIds.
Proof.
  intros w H.
  assert (C : filter (fun p => match fst p with ASet => true | _ => false end) all_uses
              = [(ASet, CGreedyRange rrule_RuleID); (ASet, CGreedyRange Int8ul)]) by (vm_compute; reflexivity).
  assert (I : In (ASet, w) (filter (fun p => match fst p with ASet => true | _ => false end) all_uses)) by (apply filter_In; auto).
  rewrite C in I. destruct I as [I|[I|[]]]; injection I as <-; auto.
Qed.
Print Assumptions C28_all_fields.
Fixpoint zdedup (l : list Z) : list Z :=
  match l with [] => [] | z :: l' => z :: filter (fun y => negb (z =? y)) (zdedup l') end.
Lemma zdedup_in l : forall z, In z (zdedup l) <-> In z l.
Proof.
  induction l as [|a l IH]; intros z; simpl; [tauto|]. rewrite filter_In, IH, negb_true_iff, Z.eqb_neq.
  destruct (Z.eq_dec a z); intuition.
Qed.
Lemma zdedup_nodup l : NoDup (zdedup l).
Proof.
  induction l as [|a l IH]; simpl; constructor; [|now apply NoDup_filter].
  rewrite filter_In, negb_true_iff, Z.eqb_neq. tauto.
Qed.
Lemma filter_map' {X Y} (g : X -> Y) (f : Y -> bool) l : filter f (map g l) = map g (filter (fun x => f (g x)) l).
Proof. induction l as [|x l IH]; simpl; [reflexivity|]. destruct (f (g x)); simpl; now rewrite IH. Qed.
Lemma dedup_map (g : Z -> val) l : (forall z, In z l -> as_int (g z) = Some z) -> dedup (map g l) = map g (zdedup l).
Proof.
  induction l as [|a l IH]; intros H; [reflexivity|]. simpl. rewrite IH by (intros; apply H; now right). f_equal.
  rewrite filter_map'. f_equal. apply filter_ext_in. intros y Hy. apply (proj1 (zdedup_in _ _)) in Hy. unfold val_num_eqb.
  rewrite (as_int_num (g a) a) by (apply H; now left). rewrite (as_int_num (g y) y) by (apply H; now right).
  now rewrite inject_Z_eqb.
Qed.
(** a list of one-octet elements *)
Lemma greedy_octets c (g : Z -> val) zs : (forall z r, In z zs -> parse c [] (z :: r) = Ok (g z, r)) -> (forall r, r = [] -> exists e, parse c [] r = Err e) ->
  forall n, (length zs < n)%nat -> greedy (parse c []) n zs = Ok (map g zs, []).
Proof.
  intros H E. induction zs as [|z zs IH]; intros n Hn; (destruct n as [|n]; [simpl in Hn; lia|]); cbn [greedy].
  - destruct (E [] eq_refl) as (e & ->). reflexivity.
  - rewrite H by (now left). destruct (Nat.ltb_spec (length zs) (length (z :: zs))) as [_|X]; [|simpl in X; lia].
    rewrite IH; [reflexivity|intros; apply H; now right|simpl in Hn; lia].
Qed.
Lemma build_octets c l : forall zs, Forall2 (fun x z => build c [] x = Ok [z]) l zs -> build_list (build c []) l = Ok zs.
Proof. induction 1 as [|x z l zs H _ IH]; [reflexivity|]. cbn [build_list]. rewrite H, IH. reflexivity. Qed.
Lemma set_field c (g : Z -> val) v l zs : iter v = Some l -> Forall2 (fun x z => build c [] x = Ok [z]) l zs ->
  (forall z r, In z zs -> parse c [] (z :: r) = Ok (g z, r) /\ as_int (g z) = Some z) -> (exists e, parse c [] [] = Err e) ->
  build_msg (CAdapt ASet (CGreedyRange c)) v = Ok zs
  /\ parse_msg (CAdapt ASet (CGreedyRange c)) zs = Ok (VSet (map g (zdedup zs))).
Proof.
  intros Hv Hb Hp He. split.
  - unfold build_msg. rewrite build_adapt. cbn [encode bind].
    change (build (CGreedyRange c) [] v) with (match iter v with Some l => build_list (build c []) l | None => Err EOther end).
    rewrite Hv. now apply build_octets.
  - unfold parse_msg. rewrite parse_adapt.
    change (parse (CGreedyRange c) [] zs) with (let* q := greedy (parse c []) (S (length zs)) zs in let (l, r) := (q : list val * list Z) in Ok (VList l, r)).
    rewrite (greedy_octets c g zs); [|intros; now apply Hp|intros ? ->; exact He|lia].
    cbn [bind decode set_decode]. rewrite dedup_map by (intros; now apply (Hp z [])). reflexivity.
Qed.
(** entry ids: the octets are the elements in the order the iterable gives them; what is read back is the set of them *)
Theorem C28_entry_ids : forall v l zs, iter v = Some l -> map as_int l = map Some zs -> Forall isbyte zs ->
  build_msg EntryIds v = Ok zs
  /\ exists r, parse_msg EntryIds zs = Ok (VSet (map VInt r)) /\ NoDup r /\ forall z, In z r <-> In z zs.
Proof.
  intros v l zs Hv Hz Hb.
  assert (B : Forall2 (fun x z => build Int8ul [] x = Ok [z]) l zs).
  { clear Hv. revert zs Hz Hb. induction l as [|x l IH]; intros [|z zs] Hz Hb; try discriminate; constructor.
    - injection Hz as Hz _. apply Forall_inv in Hb. unfold isbyte in Hb.
      change (build Int8ul [] x) with (let* z := as_intr x in if (int_min 1 false <=? z) && (z <=? int_max 1 false) then Ok (to_le 1 z) else Err EOther).
      unfold as_intr. rewrite Hz. exact (build_u1 [] z Hb).
    - injection Hz as _ Hz. apply Forall_inv_tail in Hb. auto. }
  destruct (set_field Int8ul VInt v l zs Hv B) as [H1 H2].
  { intros z r _. split; [apply parse_u1|reflexivity]. }
  { exists EOther. reflexivity. }
  split; [exact H1|]. exists (zdedup zs). split; [exact H2|]. split; [apply zdedup_nodup|apply zdedup_in].
Qed.
Print Assumptions C28_entry_ids.
Example C28_ex : build_msg EntryIds (VList [VInt 7; VBool true; VInt 7]) = Ok [7; 1; 7]
  /\ parse_msg EntryIds [7; 1; 7] = Ok (VSet [VInt 7; VInt 1]).
Proof. split; vm_compute; reflexivity. Qed.
(** rule ids, each given as a member, a number or a name *)
Theorem C28_rule_ids : forall v l zs, iter v = Some l ->
  Forall2 (fun x z => (exists n, member rrule_RuleIDs n z) /\ (as_int x = Some z \/ exists s, x = VStr (cps s) /\ named rrule_RuleIDs s z)) l zs ->
  build_msg RuleIds v = Ok zs
  /\ exists r, parse_msg RuleIds zs = Ok (VSet r) /\ NoDup (map as_int r)
     /\ forall n z, In (VEnum n z) r <-> In z zs /\ member rrule_RuleIDs n z.
Proof.
  intros v l zs Hv HF.
  assert (MV : forall n z, member rrule_RuleIDs n z <-> by_value rrule_RuleIDs z = Some (VEnum n z)).
  { intros n z. split; [apply member_by_value|apply by_value_member]. }
  assert (MB : forall n z, member rrule_RuleIDs n z -> isbyte z).
  { intros n z (t1 & t2 & E & _).
    assert (C : forallb (fun p => (0 <=? snd p) && (snd p <? 256)) rrule_RuleIDs = true) by (vm_compute; reflexivity).
    rewrite E, forallb_app in C. apply andb_prop in C as [_ C]. cbn [forallb snd] in C. apply andb_prop in C as [C _].
    apply andb_prop in C as [C1 C2]. apply Z.leb_le in C1. apply Z.ltb_lt in C2. unfold isbyte. lia. }
  assert (B : Forall2 (fun x z => build rrule_RuleID [] x = Ok [z]) l zs).
  { clear Hv. induction HF as [|x z l zs [(n & Hm) Hx] _ IH]; constructor; [|exact IH].
    unfold rrule_RuleID. rewrite build_adapt. pose proof (MB n z Hm) as Hz.
    destruct (adapters_ok (AEnum rrule_RuleIDs) x (VEnum n z) (VInt z) (VEnum n z)) as [He _].
    { exists n, z. split; [exact Hm|]. split; [exact Hx|]. split; [reflexivity|]. split; reflexivity. }
    rewrite He. cbn [bind]. exact (build_u1 [] z Hz). }
  assert (M : forall z, In z zs -> exists n, member rrule_RuleIDs n z).
  { intros z Hz. clear - HF Hz. induction HF as [|x y l zs [Hm _] _ IH]; [destruct Hz|]. destruct Hz as [<-|Hz]; auto. }
  destruct (set_field rrule_RuleID (fun z => match by_value rrule_RuleIDs z with Some m => m | None => VNone end) v l zs Hv B) as [H1 H2].
  { intros z r Hz. destruct (M z Hz) as (n & Hn). apply MV in Hn. rewrite Hn. split; [|reflexivity].
    unfold rrule_RuleID. rewrite parse_adapt, parse_u1. cbn [bind decode enum_decode as_int]. now rewrite Hn. }
  { exists EOther. reflexivity. }
  split; [exact H1|]. eexists. split; [exact H2|]. split.
  - rewrite map_map. rewrite (map_ext_in _ Some).
    + apply FinFun.Injective_map_NoDup; [intros a b E; now injection E|apply zdedup_nodup].
    + intros z Hz. apply (proj1 (zdedup_in _ _)) in Hz. destruct (M z Hz) as (n & Hn). apply MV in Hn. now rewrite Hn.
  - intros n z. rewrite in_map_iff. split.
    + intros (y & E & Hy). apply (proj1 (zdedup_in _ _)) in Hy. destruct (M y Hy) as (n' & Hn'). pose proof Hn' as Hn. apply MV in Hn. rewrite Hn in E. injection E as -> ->. auto.
    + intros [Hz Hn]. exists z. apply MV in Hn. rewrite Hn. split; [reflexivity|]. now apply zdedup_in.
Qed.
Print Assumptions C28_rule_ids.
Example C28_rule_ids_ex : build_msg RuleIds (VSet [VStr (cps "UNTIL"); VInt 0; VEnum "COUNT" 2]) = Ok [1; 0; 2]
  /\ parse_msg RuleIds [1; 0; 2] = Ok (VSet [VEnum "UNTIL" 1; VEnum "FREQ" 0; VEnum "COUNT" 2]).
Proof. split; vm_compute; reflexivity. Qed.

(** ** C29: MAC addresses *)
Definition Mac : con := CAdapt AMac (CBytes 6).
Lemma hexdigit_hex n : 0 <= n < 16 -> is_hex (hexdigit n) n /\ (48 <= hexdigit n <= 57 \/ 97 <= hexdigit n <= 102).
Proof. intros H. unfold is_hex, hexdigit. destruct (Z.ltb_spec n 10); lia. Qed.
Lemma join_mac l : bytes l -> l <> [] -> mac_text (join 58 (map hex2 l)) l /\ lower_mac (join 58 (map hex2 l)).
Proof.
  unfold lower_mac. induction l as [|b [|b2 l] IH]; intros Hb Hn; [congruence| |].
  - apply Forall_inv in Hb. unfold isbyte in Hb.
    destruct (hexdigit_hex (b / 16)) as [A1 A2]; [Z.div_mod_to_equations; lia|].
    destruct (hexdigit_hex (b mod 16)) as [B1 B2]; [Z.div_mod_to_equations; lia|].
    cbn [map join mac_text]. unfold hex2. split.
    + exists (hexdigit (b / 16)), (hexdigit (b mod 16)), (b / 16), (b mod 16). split; [reflexivity|]. split; [exact A1|]. split; [exact B1|]. Z.div_mod_to_equations; lia.
    + constructor; [auto|]. constructor; [auto|]. constructor.
  - destruct (IH (Forall_inv_tail Hb) ltac:(discriminate)) as [I1 I2]. apply Forall_inv in Hb. unfold isbyte in Hb.
    destruct (hexdigit_hex (b / 16)) as [A1 A2]; [Z.div_mod_to_equations; lia|].
    destruct (hexdigit_hex (b mod 16)) as [B1 B2]; [Z.div_mod_to_equations; lia|].
    change (join 58 (map hex2 (b :: b2 :: l))) with (hexdigit (b / 16) :: hexdigit (b mod 16) :: 58 :: join 58 (map hex2 (b2 :: l))). split.
    + exists (hexdigit (b / 16)), (hexdigit (b mod 16)), (b / 16), (b mod 16), (join 58 (map hex2 (b2 :: l))).
      split; [reflexivity|]. split; [exact A1|]. split; [exact B1|]. split; [Z.div_mod_to_equations; lia|exact I1].
    + constructor; [auto|]. constructor; [auto|]. constructor; [auto|]. exact I2.
Qed.
(** six octets read as their lower-case text, which builds the six octets again *)
Theorem C29_round_trip : forall s, bytes s -> length s = 6%nat ->
  exists t, parse_msg Mac s = Ok (VStr t) /\ mac_text t s /\ lower_mac t /\ build_msg Mac (VStr t) = Ok s.
Proof.
  intros s Hb Hl. destruct (join_mac s Hb) as [H1 H2]; [intros ->; discriminate|].
  exists (join 58 (map hex2 s)). split; [|split; [exact H1|]; split; [exact H2|]].
  - unfold parse_msg, Mac. rewrite parse_adapt.
    change (parse (CBytes 6) [] s) with (let* q := take 6 s in let (a, r) := (q : list Z * list Z) in Ok (VBytes a, r)).
    rewrite <- (app_nil_r s) at 1. rewrite (take_app' 6) by exact Hl. reflexivity.
  - unfold build_msg, Mac. rewrite build_adapt. cbn [encode mac_encode]. rewrite (mac_octets s _ H1). cbn [bind].
    change (build (CBytes 6) [] (VBytes s)) with (if Nat.eqb (length s) 6 then Ok s else Err EOther). now rewrite Hl.
Qed.
Print Assumptions C29_round_trip.
(** digits of either case are accepted; another number of octets is rejected *)
Theorem C29_build : forall t s, mac_text t s -> build_msg Mac (VStr t) = if Nat.eqb (length s) 6 then Ok s else Err EOther.
Proof.
  intros t s H. unfold build_msg, Mac. rewrite build_adapt. cbn [encode mac_encode]. now rewrite (mac_octets s _ H).
Qed.
Print Assumptions C29_build.
Example C29_ex : mac_text (cps "aB:00:ff:10:9C:01") [171; 0; 255; 16; 156; 1]
  /\ build_msg Mac (VStr (cps "aB:00:ff:10:9C:01")) = Ok [171; 0; 255; 16; 156; 1]
  /\ parse_msg Mac [171; 0; 255; 16; 156; 1] = Ok (VStr (cps "ab:00:ff:10:9c:01")).
Proof.
  split; [|split; vm_compute; reflexivity].
  change (cps "aB:00:ff:10:9C:01") with [97; 66; 58; 48; 48; 58; 102; 102; 58; 49; 48; 58; 57; 67; 58; 48; 49].
  repeat match goal with
  | |- mac_text (?c1 :: ?c2 :: ?s) (?b :: ?l) =>
      let n1 := eval vm_compute in (b / 16) in let n2 := eval vm_compute in (b mod 16) in
      match s with
      | [] => exists c1, c2, n1, n2; split; [reflexivity|]; unfold is_hex; lia
      | _ :: ?s' => exists c1, c2, n1, n2, s'; split; [reflexivity|]; split; [unfold is_hex; lia|]; split; [unfold is_hex; lia|]; split; [lia|]
      end
  end.
Qed.

(** ** C30: IPv4 addresses *)
Definition Ip : con := CAdapt AIp (CBytes 4).
Theorem C30_text : forall l, bytes l -> length l = 4%nat ->
  build_msg Ip (VStr (dotted l)) = Ok l /\ parse_msg Ip l = Ok (VIPv4 l).
Proof.
  intros l Hb Hl. split.
  - unfold build_msg, Ip. rewrite build_adapt. cbn [encode ip_encode]. rewrite (dotted_octets l Hb) by (intros ->; discriminate). cbn [bind].
    change (build (CBytes 4) [] (VBytes l)) with (if Nat.eqb (length l) 4 then Ok l else Err EOther). now rewrite Hl.
  - unfold parse_msg, Ip. rewrite parse_adapt.
    change (parse (CBytes 4) [] l) with (let* q := take 4 l in let (a, r) := (q : list Z * list Z) in Ok (VBytes a, r)).
    rewrite <- (app_nil_r l) at 1. rewrite (take_app' 4) by exact Hl. reflexivity.
Qed.
Print Assumptions C30_text.
(** the IPv4Address object that parse returns is never accepted by build *)
Theorem C30_reencode_refuted : forall l, bytes l -> length l = 4%nat ->
  exists u, parse_msg Ip l = Ok u /\ exists e, build_msg Ip u = Err e.
Proof.
  intros l Hb Hl. exists (VIPv4 l). split; [now apply C30_text|]. exists EOther. reflexivity.
Qed.
Print Assumptions C30_reencode_refuted.
Example C30_ex : dotted [192; 168; 0; 7] = cps "192.168.0.7" /\ build_msg Ip (VStr (cps "192.168.0.7")) = Ok [192; 168; 0; 7].
Proof. split; vm_compute; reflexivity. Qed.

(** ** C31: dates, a 24-bit count of days since 1970-01-01 *)
Definition Date : con := CAdapt ADate Int24ul.
Lemma cal_days y m z n : calendar y m 1 z -> month_len y m n -> forall d, 1 <= d <= n -> calendar y m d (z + (d - 1)).
Proof.
  intros H L d Hd. replace d with (1 + Z.of_nat (Z.to_nat (d - 1))) by lia. assert (B : (Z.to_nat (d - 1) < Z.to_nat n)%nat) by lia.
  revert B. generalize (Z.to_nat (d - 1)). clear d Hd. induction n0 as [|k IH]; intros B.
  - replace (z + (1 + Z.of_nat 0 - 1)) with z by lia. exact H.
  - replace (1 + Z.of_nat (S k)) with (1 + Z.of_nat k + 1) by lia.
    replace (z + (1 + Z.of_nat k + 1 - 1)) with (z + (1 + Z.of_nat k - 1) + 1) by lia.
    apply (cal_day y m _ _ n); [apply IH; lia|exact L|lia].
Qed.
Lemma cal_days_back y m z n : calendar y m n z -> 1 <= n -> calendar y m 1 (z - (n - 1)).
Proof.
  intros H Hn. replace (z - (n - 1)) with (z - Z.of_nat (Z.to_nat (n - 1))) by lia.
  assert (E : forall k : nat, Z.of_nat k <= n - 1 -> calendar y m (n - Z.of_nat k) (z - Z.of_nat k)).
  { induction k as [|k IH]; intros B; [rewrite !Z.sub_0_r; exact H|].
    replace (n - Z.of_nat (S k)) with (n - Z.of_nat k - 1) by lia. replace (z - Z.of_nat (S k)) with (z - Z.of_nat k - 1) by lia.
    apply cal_day_back; [apply IH|]; lia. }
  specialize (E (Z.to_nat (n - 1)) ltac:(lia)). replace (n - Z.of_nat (Z.to_nat (n - 1))) with 1 in E by lia. exact E.
Qed.
Lemma cal_month1 y z : calendar y 1 1 z -> forall m, 1 <= m <= 12 -> exists z', calendar y m 1 z'.
Proof.
  intros H m Hm. replace m with (1 + Z.of_nat (Z.to_nat (m - 1))) by lia. assert (B : (Z.to_nat (m - 1) < 12)%nat) by lia.
  revert B. generalize (Z.to_nat (m - 1)). clear m Hm. induction n as [|k IH]; intros B; [now exists z|].
  destruct IH as (z' & IH); [lia|]. set (m := 1 + Z.of_nat k) in *.
  assert (L : month_len y m (days_in_month y m)) by (apply month_len_spec; split; [lia|reflexivity]).
  pose proof (days_in_month_pos y m). pose proof (cal_days _ _ _ _ IH L (days_in_month y m) ltac:(lia)) as C.
  exists (z' + (days_in_month y m - 1) + 1). replace (1 + Z.of_nat (S k)) with (m + 1) by lia. eapply cal_month; [exact C|exact L|lia].
Qed.
Lemma cal_month1_back y z : calendar y 12 1 z -> exists z', calendar y 1 1 z'.
Proof.
  intros H. assert (E : forall k : nat, (k < 12)%nat -> exists z', calendar y (12 - Z.of_nat k) 1 z').
  { induction k as [|k IH]; intros B; [now exists z|]. destruct IH as (z' & IH); [lia|]. set (m := 12 - Z.of_nat k) in *.
    assert (L : month_len y (m - 1) (days_in_month y (m - 1))) by (apply month_len_spec; split; [lia|reflexivity]).
    pose proof (days_in_month_pos y (m - 1)). pose proof (cal_month_back _ _ _ _ IH ltac:(lia) L) as C.
    apply cal_days_back in C; [|lia]. replace (12 - Z.of_nat (S k)) with (m - 1) by lia. eauto. }
  destruct (E 11%nat ltac:(lia)) as (z' & C). eauto.
Qed.
Lemma cal_year1 y : 1 <= y -> exists z, calendar y 1 1 z.
Proof.
  intros Hy. destruct (Z.le_gt_cases 1970 y) as [H|H].
  - replace y with (1970 + Z.of_nat (Z.to_nat (y - 1970))) by lia. generalize (Z.to_nat (y - 1970)). clear y Hy H.
    induction n as [|k (z & IH)]; [exists 0; exact cal_epoch|]. replace (1970 + Z.of_nat (S k)) with (1970 + Z.of_nat k + 1) by lia.
    destruct (cal_month1 _ _ IH 12 ltac:(lia)) as (z' & C).
    assert (L : month_len (1970 + Z.of_nat k) 12 31) by (right; right; right; split; [cbn; tauto|reflexivity]).
    pose proof (cal_days _ _ _ _ C L 31 ltac:(lia)) as D. apply cal_year in D. eauto.
  - assert (E : forall k : nat, Z.of_nat k < 1970 -> exists z, calendar (1970 - Z.of_nat k) 1 1 z).
    { induction k as [|k IH]; intros B; [exists 0; exact cal_epoch|]. destruct IH as (z & IH); [lia|].
      pose proof (cal_year_back _ _ IH ltac:(lia)) as C. apply cal_days_back in C; [|lia]. apply cal_month1_back in C.
      replace (1970 - Z.of_nat (S k)) with (1970 - Z.of_nat k - 1) by lia. exact C. }
    destruct (E (Z.to_nat (1970 - y)) ltac:(lia)) as (z & C). replace (1970 - Z.of_nat (Z.to_nat (1970 - y))) with y in C by lia. eauto.
Qed.
(** the calendar has every day of every month, and the day count is the library's *)
Lemma civil_calendar y m d z : civil_days y m d = Some z <-> (1 <= y <= 9999 /\ calendar y m d z).
Proof.
  split; [|intros [Hy H]; apply calendar_civil; [exact H|lia]].
  intros H. assert (R : 1 <= y <= 9999 /\ 1 <= m <= 12 /\ 1 <= d <= days_in_month y m).
  { unfold civil_days in H. destruct (_ && _) eqn:E in H; [|discriminate]. rewrite !andb_true_iff, !Z.leb_le in E. lia. }
  destruct R as (Hy & Hm & Hd). split; [exact Hy|].
  destruct (cal_year1 y ltac:(lia)) as (z1 & C1). destruct (cal_month1 _ _ C1 m Hm) as (z2 & C2).
  assert (L : month_len y m (days_in_month y m)) by (apply month_len_spec; split; [lia|reflexivity]).
  pose proof (cal_days _ _ _ _ C2 L d Hd) as C. rewrite (calendar_civil _ _ _ _ C) in H by lia. injection H as <-. exact C.
Qed.
Lemma build_u3 ctx z : 0 <= z < 2 ^ 24 -> build Int24ul ctx (VInt z) = Ok [z mod 256; z / 256 mod 256; z / 65536].
Proof.
  intros Hz. destruct (C12_bytesint_in_range 3 true ctx (VInt z) z eq_refl Hz) as (s & -> & Hb & Hl & Hs). f_equal.
  destruct s as [|a [|b [|c [|]]]]; try discriminate. cbn [of_le] in Hs.
  inversion Hb as [|? ? A Hb1]; subst. inversion Hb1 as [|? ? B Hb2]; subst. inversion Hb2 as [|? ? C _]; subst. unfold isbyte in *.
  repeat f_equal; Z.div_mod_to_equations; lia.
Qed.
Theorem C31_parse : forall z, 0 <= z < 2 ^ 24 -> parse_msg Date [z mod 256; z / 256 mod 256; z / 65536] = if z <=? 2932896 then Ok (VDate z) else Err EOther.
Proof.
  intros z Hz. unfold parse_msg, Date. rewrite parse_adapt.
  change (parse Int24ul [] ?s) with (let* q := take 3 s in let (a, r) := (q : list Z * list Z) in Ok (VInt (of_le a), r)).
  change (take 3 [?a; ?b; ?c]) with (Ok ([a; b; c], @nil Z)). cbn [bind of_le decode]. unfold date_decode, as_intr. cbn [as_int bind].
  replace (z mod 256 + 256 * (z / 256 mod 256 + 256 * (z / 65536 + 256 * 0))) with z by (Z.div_mod_to_equations; lia).
  unfold min_day, max_day. destruct (Z.leb_spec (-719162) z); [|lia]. destruct (Z.leb_spec z 2932896); reflexivity.
Qed.
Print Assumptions C31_parse.
Theorem C31_build : forall z, 0 <= z <= 2932896 -> build_msg Date (VDate z) = Ok [z mod 256; z / 256 mod 256; z / 65536].
Proof. intros z Hz. unfold build_msg, Date. rewrite build_adapt. cbn [encode date_encode bind]. apply build_u3. lia. Qed.
Print Assumptions C31_build.
(** no date (None) goes out as day 0, and a plain number as that number of days *)
Theorem C31_build_plain : build_msg Date VNone = Ok [0; 0; 0] /\ forall z, 0 <= z < 2 ^ 24 -> build_msg Date (VInt z) = Ok [z mod 256; z / 256 mod 256; z / 65536].
Proof.
  split; [vm_compute; reflexivity|]. intros z Hz. unfold build_msg, Date. rewrite build_adapt. cbn [encode date_encode bind]. apply build_u3. lia.
Qed.
Print Assumptions C31_build_plain.
(** {year, month, day}: exactly the dates of the calendar from 1970 to 9999, encoded like the date *)
Theorem C31_build_dict : forall d y m dd, dget "year" d = Some (VInt y) -> dget "month" d = Some (VInt m) -> dget "day" d = Some (VInt dd) ->
  (exists z, calendar y m dd z /\ 0 <= z /\ y <= 9999 /\ build_msg Date (VDict d) = build_msg Date (VDate z))
  \/ (~ (exists z, calendar y m dd z /\ 0 <= z /\ y <= 9999)) /\ exists e, build_msg Date (VDict d) = Err e.
Proof.
  intros d y m dd Hy Hm Hd. unfold build_msg, Date. rewrite build_adapt. cbn [encode date_encode]. unfold geti, dgetr. rewrite Hy. cbn [bind].
  change (as_intr (VInt ?z)) with (Ok z). cbn [bind]. rewrite Hm. cbn [bind]. change (as_intr (VInt ?z)) with (Ok z). cbn [bind].
  rewrite Hd. cbn [bind]. change (as_intr (VInt ?z)) with (Ok z). cbn [bind].
  destruct (civil_days y m dd) as [z|] eqn:E; cbn [bind].
  - apply civil_calendar in E as [Hr Hc]. destruct (Z.lt_ge_cases z 0).
    + right. split; [|eapply C12_bytesint_negative_rejected; [reflexivity|assumption]].
      intros (z' & Hc' & Hz' & _). apply calendar_spec in Hc, Hc'. lia.
    + left. exists z. split; [exact Hc|]. split; [lia|]. split; [lia|]. rewrite build_adapt. reflexivity.
  - right. split; [|eauto]. intros (z & Hc & Hz & Hy9). rewrite (calendar_civil _ _ _ _ Hc) in E by lia. discriminate E.
Qed.
Print Assumptions C31_build_dict.
(** the calendar gives each date one day count *)
Theorem C31_calendar_functional : forall y m d z z', calendar y m d z -> calendar y m d z' -> z = z'.
Proof. intros y m d z z' H H'. apply calendar_spec in H, H'. lia. Qed.
Print Assumptions C31_calendar_functional.
(** and every day of years 1 .. has a place in it *)
Theorem C31_calendar_total : forall y m d n, 1 <= y <= 9999 -> month_len y m n -> 1 <= d <= n -> exists z, calendar y m d z.
Proof.
  intros y m d n Hy L Hd. apply month_len_spec in L as [Hm L]. destruct (civil_days y m d) as [z|] eqn:E.
  - exists z. now apply civil_calendar in E.
  - unfold civil_days in E. destruct (_ && _) eqn:F in E; [discriminate|]. rewrite !andb_false_iff, !Z.leb_gt in F. lia.
Qed.
Print Assumptions C31_calendar_total.
Example C31_ex : build_msg Date (VDict [("year"%string, VInt 2024); ("month"%string, VInt 2); ("day"%string, VInt 29)]) = Ok [70; 77; 0]
  /\ parse_msg Date [70; 77; 0] = Ok (VDate 19782)
  /\ (exists e, build_msg Date (VDict [("year"%string, VInt 2023); ("month"%string, VInt 2); ("day"%string, VInt 29)]) = Err e)
  /\ calendar 1969 12 31 (-1).
Proof.
  split; [vm_compute; reflexivity|]. split; [vm_compute; reflexivity|]. split; [eexists; vm_compute; reflexivity|].
  apply (cal_year_back 1970 0 cal_epoch). lia.
Qed.

(** the fields above are all the MAC, IP and date fields of the library *)
Theorem C29_C30_C31_all_fields : forall w,
  (In (AMac, w) all_uses -> CAdapt AMac w = Mac) /\ (In (AIp, w) all_uses -> CAdapt AIp w = Ip) /\ (In (ADate, w) all_uses -> CAdapt ADate w = Date).
Proof.
  intros w.
  assert (C : forallb (fun p => match fst p with AMac => con_eqb (snd p) (CBytes 6) | AIp => con_eqb (snd p) (CBytes 4) | ADate => con_eqb (snd p) Int24ul | _ => true end) all_uses = true) by (vm_compute; reflexivity).
  pose proof (proj1 (forallb_forall _ all_uses) C) as D. clear C.
  repeat split; intros H; apply D in H; cbn [fst snd] in H; apply con_eqb_spec in H; now subst.
Qed.
Print Assumptions C29_C30_C31_all_fields.

(** * P_transition: transition times and delays (C18-C21). *)
From Coq Require Import Lqa Qabs.
From Verif Require Import PyVal Bits Float64 FloatX Utf8 Adapters Construct Size Spec Master
  AdapterSpec AdapterProofs1 AdapterProofs2 AdapterProofs3 AdapterProofs4 Access AccessProofs Conform BitLayout G_generics.

(** the transition-time field; [u]: the message allows the "unknown" value *)
Definition TT (u : bool) : con := CAdapt (ATransition u) generics_TransitionTime.
(** its one octet: resolution index in the upper two bits, number of steps below.
    Units in seconds as the library computes with them: binary64 0.1, or 1, 10, 600 *)
Definition unit_of (r : Z) : Q := if r =? 0 then rnd64 (1 # 10) else if r =? 1 then 1 else if r =? 2 then 10 else 600.
(** what 63 steps of the resolution decode to *)
Definition top (r : Z) : Q := rnd64 (63 * unit_of r).

Lemma build_steps ctx r s : 0 <= r < 4 -> 0 <= s < 64 ->
  build generics_TransitionTime ctx (VDict [("steps"%string, VInt s); ("resolution"%string, VInt r)]) = Ok [64 * r + s].
Proof.
  intros Hr Hs. unfold generics_TransitionTime.
  change (build (CBitwise ?c) ctx ?v) with (let* bs := build c ctx v in match bits2bytes bs with (l, []) => Ok l | _ => Err EOther end).
  change (build (CStruct ?f) ctx (VDict ?d)) with (build_fields f d d).
  cbn [build_fields]. unfold dgetr. cbn [dget String.eqb Ascii.eqb Bool.eqb bind].
  assert (B : forall n c z, 0 <= z -> build (CBits n false) c (VInt z) = Ok (to_bits n z)).
  { intros n c z Hz. cbn [build as_intr as_int bind]. destruct (Z.ltb_spec z 0); [lia|reflexivity]. }
  rewrite !B by lia. cbn [bind]. rewrite app_nil_r, to_bits_app by (simpl; lia). change (2 + 6)%nat with (8 * 1)%nat.
  rewrite bits2bytes_to_bits. cbn [to_le rev app]. change (2 ^ Z.of_nat 6) with 64. rewrite Z.mod_small by lia. do 2 f_equal. lia.
Qed.
Lemma parse_steps ctx b rest : isbyte b -> bytes rest ->
  parse generics_TransitionTime ctx (b :: rest) = Ok (VDict [("resolution"%string, VInt (b / 64)); ("steps"%string, VInt (b mod 64))], rest).
Proof.
  intros Hb Hr. unfold generics_TransitionTime.
  match goal with |- parse (CBitwise ?c) ctx ?s = _ => change (parse (CBitwise c) ctx s) with
    (let* q := parse c ctx (bytes2bits s) in let (v, r) := (q : val * list Z) in match bits2bytes r with (r', []) => Ok (v, r') | _ => Err EOther end) end.
  assert (E : bytes2bits (b :: rest) = to_bits 2 (b / 64) ++ to_bits 6 b ++ bytes2bits rest).
  { unfold bytes2bits at 1. cbn [flat_map]. change 8%nat with (2 + 6)%nat. rewrite to_bits_split, <- app_assoc. reflexivity. }
  rewrite E.
  change (parse (CStruct ?f) ctx ?s) with (let* q := parse_fields f [] s in let (d, r) := (q : dict * list Z) in Ok (VDict d, r)).
  unfold isbyte in Hb. cbn [parse_fields parse].
  rewrite (take_app' 2) by apply to_bits_length. cbn [bind]. rewrite (take_app' 6) by apply to_bits_length. cbn [bind].
  rewrite !of_to_bits, bits2bytes_bytes2bits' by exact Hr. change (2 ^ Z.of_nat 2) with 4. change (2 ^ Z.of_nat 6) with 64.
  rewrite (Z.mod_small (b / 64)); [reflexivity|]. split; [apply Z.div_pos; lia|apply Z.div_lt_upper_bound; lia].
Qed.

Lemma trunc_spec y : (0 <= y)%Q -> (inject_Z (ftrunc (rnd64 y)) <= rnd64 y)%Q /\ (rnd64 y < inject_Z (ftrunc (rnd64 y)) + 1)%Q /\ 0 <= ftrunc (rnd64 y).
Proof.
  intros Hy. pose proof (rnd64_nonneg y Hy) as H. destruct (rnd64 y) as [a b]. unfold ftrunc, Qle, Qlt in *; cbn [Qnum Qden inject_Z Qplus] in *.
  assert (0 <= a) by lia. rewrite Z.quot_div_nonneg by lia. pose proof (Z.div_mod a (Zpos b)). pose proof (Z.mod_pos_bound a (Zpos b)).
  assert (0 <= a / Zpos b) by (apply Z.div_pos; lia). split; [lia|]. split; [|lia]. lia.
Qed.
(** truncating the rounded quotient: never more than the quotient (up to rounding), less than one below *)
Lemma trunc_div y : (0 <= y)%Q -> (y <= 2 ^ 20)%Q ->
  (inject_Z (ftrunc (rnd64 y)) <= y * (1 + (1 # 2 ^ 53)))%Q /\ (y < inject_Z (ftrunc (rnd64 y)) + 1)%Q /\ 0 <= ftrunc (rnd64 y).
Proof.
  intros Hy Hm. destruct (trunc_spec y Hy) as (H1 & H2 & H3). split; [|split; [|exact H3]].
  - pose proof (rnd64_bounds_pos y Hy) as [_ B]. change (1 # 2 ^ 53)%Q with (1 # 9007199254740992)%Q. lra.
  - destruct (Qlt_le_dec y (inject_Z (ftrunc (rnd64 y)) + 1)) as [L|L]; [exact L|exfalso].
    change 1%Q with (inject_Z 1) in L. rewrite <- inject_Z_plus in L.
    assert (K : Z.abs (ftrunc (rnd64 y) + 1) <= 2 ^ 53).
    { assert (inject_Z (ftrunc (rnd64 y) + 1) <= inject_Z (2 ^ 20))%Q by (eapply Qle_trans; [exact L|exact Hm]).
      rewrite <- Zle_Qle in H. lia. }
    pose proof (rnd64_ge_int y _ K L) as G. rewrite inject_Z_plus in G. change (inject_Z 1) with 1%Q in G. lra.
Qed.

Lemma unit_pos r : 0 <= r < 4 -> (0 < unit_of r)%Q.
Proof. intros H. assert (r = 0 \/ r = 1 \/ r = 2 \/ r = 3) as [->|[->|[->| ->]]] by lia; vm_compute; reflexivity. Qed.
Lemma top_int r : 1 <= r < 4 -> (top r == 63 * unit_of r)%Q.
Proof. intros H. assert (r = 1 \/ r = 2 \/ r = 3) as [->|[->| ->]] by lia; vm_compute; reflexivity. Qed.
Lemma top0 : (top 0 <= 63 * unit_of 0 + (1 # 10 ^ 15))%Q.
Proof. apply Qleb_spec. vm_compute. reflexivity. Qed.

Lemma forallb_upto P n : forallb P (upto n) = true -> forall z, 0 <= z < Z.of_nat n -> P z = true.
Proof. intros H z Hz. exact (proj1 (forallb_forall P (upto n)) H z (in_upto n z Hz)). Qed.

(** the first resolution whose 63 steps reach the time *)
Definition finest (x : Q) (r : Z) : Prop := 0 <= r < 4 /\ (x <= top r)%Q /\ (0 < r -> (top (r - 1) < x)%Q).
Lemma pick_spec v x : num_of v = Some x -> (0 <= x)%Q ->
  (match transition_try v x 0 with
                  | Some p => Some p
                  | None => match transition_try v x 1 with
                            | Some p => Some p
                            | None => match transition_try v x 2 with
                                      | Some p => Some p
                                      | None => transition_try v x 3
                                      end
                            end
                  end) = None /\ (top 3 < x)%Q \/
  exists r, finest x r /\
  (match transition_try v x 0 with
                  | Some p => Some p
                  | None => match transition_try v x 1 with
                            | Some p => Some p
                            | None => match transition_try v x 2 with
                                      | Some p => Some p
                                      | None => transition_try v x 3
                                      end
                            end
                  end) = Some (r, rnd64 (x / unit_of r)).
Proof.
  intros Hv H0.
  assert (T0 : transition_try v x 0 = if Qleb x (top 0) then Some (0, rnd64 (x / unit_of 0)) else None).
  { destruct (Qlt_le_dec 100000 x) as [L|L].
    - assert (Qleb x (top 0) = false) as E. { apply Qleb_false. eapply Qlt_trans; [|exact L]. vm_compute. reflexivity. }
      rewrite E. unfold transition_try. change (step_resolution 0) with (Some (RFloat (flit 1 10))).
      cbv iota beta. change (num_of (times 63 (RFloat (flit 1 10)))) with (Some lim0). cbv iota beta.
      change lim0 with (top 0). now rewrite E.
    - exact (try0 v x Hv (conj H0 L)). }
  pose proof (tryk v x 1 1 Hv eq_refl ltac:(lia)) as T1. pose proof (tryk v x 2 10 Hv eq_refl ltac:(lia)) as T2.
  pose proof (tryk v x 3 600 Hv eq_refl ltac:(lia)) as T3.
  rewrite T0, T1, T2, T3. clear T0 T1 T2 T3.
  change (inject_Z (63 * 1)) with (63 # 1)%Q. change (inject_Z (63 * 10)) with (630 # 1)%Q. change (inject_Z (63 * 600)) with (37800 # 1)%Q.
  assert (E1 : (top 1 == 63 # 1)%Q) by (vm_compute; reflexivity). assert (E2 : (top 2 == 630 # 1)%Q) by (vm_compute; reflexivity).
  assert (E3 : (top 3 == 37800 # 1)%Q) by (vm_compute; reflexivity).
  destruct (Qleb x (top 0)) eqn:Q0; [right; exists 0; split; [|reflexivity]; split; [lia|]; split; [now apply Qleb_spec|lia]|].
  apply Qleb_false in Q0. destruct (Qleb x (63 # 1)) eqn:Q1.
  { right; exists 1; split; [|reflexivity]; split; [lia|]; split; [rewrite E1; now apply Qleb_spec|intros _; exact Q0]. }
  apply Qleb_false in Q1. destruct (Qleb x (630 # 1)) eqn:Q2.
  { right; exists 2; split; [|reflexivity]; split; [lia|]; split; [rewrite E2; now apply Qleb_spec|intros _; change (2 - 1) with 1; rewrite E1; exact Q1]. }
  apply Qleb_false in Q2. destruct (Qleb x (37800 # 1)) eqn:Q3.
  { right; exists 3; split; [|reflexivity]; split; [lia|]; split; [rewrite E3; now apply Qleb_spec|intros _; change (3 - 1) with 2; rewrite E2; exact Q2]. }
  left. split; [reflexivity|]. rewrite E3. now apply Qleb_false.
Qed.

Lemma rneQ_ge q k : (inject_Z k - (495 # 1000) <= q)%Q -> k <= rneQ q.
Proof.
  intros H. pose proof (rneQ_bound q) as B. apply Qabs_Qle_condition in B as [B1 B2].
  destruct (Z.le_gt_cases k (rneQ q)); [assumption|exfalso].
  assert (inject_Z (rneQ q + 1) <= inject_Z k)%Q by (rewrite <- Zle_Qle; lia).
  rewrite inject_Z_plus in H1. change (inject_Z 1) with 1%Q in H1. lra.
Qed.

(** ** C18: a time goes out in the finest resolution that reaches it, as the number of
    whole steps it contains: at most the request (up to one unit in the 16th digit),
    less than one step short *)
Theorem C18_encode : forall u v x, num_of v = Some x -> (0 <= x)%Q -> (x <= 37800)%Q ->
  exists r s, finest x r /\ 0 <= s <= 63
    /\ (inject_Z s * unit_of r <= x * (1 + (1 # 2 ^ 53)))%Q /\ (x < (inject_Z s + 1) * unit_of r)%Q
    /\ ((u = true \/ (x <= (6249 # 100) * unit_of r)%Q) -> build_msg (TT u) v = Ok [64 * r + s])
    /\ (u = false -> ((6251 # 100) * unit_of r <= x)%Q -> exists e, build_msg (TT u) v = Err e).
Proof.
  intros u v x Hv H0 Hm. destruct (pick_spec v x Hv H0) as [[_ H]|(r & Hf & Hp)].
  { exfalso. assert (E3 : (top 3 == 37800 # 1)%Q) by (vm_compute; reflexivity). lra. }
  pose proof Hf as (Hr & Ht & _). pose proof (unit_pos r Hr) as Hu.
  assert (Hy : (0 <= x / unit_of r)%Q) by (apply Qle_shift_div_l; lra).
  assert (Hc : (x / unit_of r <= 63 + (1 # 1000))%Q).
  { apply Qle_shift_div_r; [exact Hu|]. destruct (Z.eq_dec r 0) as [->|]; [|rewrite top_int in Ht by lia; lra].
    pose proof top0. assert ((1 # 10 ^ 15) <= (1 # 1000) * unit_of 0)%Q by (apply Qleb_spec; vm_compute; reflexivity). lra. }
  destruct (trunc_div (x / unit_of r) Hy) as (H1 & H2 & H3). { eapply Qle_trans; [exact Hc|]. vm_compute. discriminate. }
  assert (Ex : (x == x / unit_of r * unit_of r)%Q) by (field; intros E; rewrite E in Hu; discriminate).
  exists r, (ftrunc (rnd64 (x / unit_of r))). set (s := ftrunc (rnd64 (x / unit_of r))) in *.
  assert (Hs : s <= 63).
  { assert (inject_Z s < inject_Z 64)%Q. { change (1 # 2 ^ 53)%Q with (1 # 9007199254740992)%Q in H1. change (inject_Z 64) with 64%Q. lra. } rewrite <- Zlt_Qlt in H. lia. }
  split; [exact Hf|]. split; [lia|]. split; [|split; [|split]].
  - rewrite Ex at 1. setoid_replace (x / unit_of r * unit_of r * (1 + (1 # 2 ^ 53)))%Q with (x / unit_of r * (1 + (1 # 2 ^ 53)) * unit_of r)%Q by ring.
    apply Qmult_le_compat_r; [exact H1|lra].
  - rewrite Ex at 1. apply Qmult_lt_compat_r; [exact Hu|exact H2].
  - intros Hcase. unfold build_msg, TT. rewrite build_adapt. cbn [encode]. unfold transition_encode. rewrite Hv. cbv zeta. rewrite Hp.
    assert (Hr2 : rneQ (rnd64 (x / unit_of r)) <= (if u then 63 else 62)).
    { pose proof (rnd64_bounds_pos _ Hy) as [_ B]. destruct u.
      - apply rneQ_le. change (inject_Z 63) with 63%Q. lra.
      - destruct Hcase as [Hd|Hx]; [discriminate|]. apply rneQ_le. change (inject_Z 62) with 62%Q.
        assert (x / unit_of r <= 6249 # 100)%Q by (apply Qle_shift_div_r; [exact Hu|exact Hx]). lra. }
    destruct (Z.leb_spec (rneQ (rnd64 (x / unit_of r))) (if u then 63 else 62)); [|lia].
    cbn [bind]. apply build_steps; lia.
  - intros -> Hx. unfold build_msg, TT. rewrite build_adapt. cbn [encode]. unfold transition_encode. rewrite Hv. cbv zeta. rewrite Hp.
    assert (Hr2 : 63 <= rneQ (rnd64 (x / unit_of r))).
    { pose proof (rnd64_bounds_pos _ Hy) as [B _]. apply rneQ_ge. change (inject_Z 63) with 63%Q.
      assert (6251 # 100 <= x / unit_of r)%Q by (apply Qle_shift_div_l; [exact Hu|exact Hx]). lra. }
    destruct (Z.leb_spec (rneQ (rnd64 (x / unit_of r))) 62); [lia|]. cbn [bind]. eauto.
Qed.
Print Assumptions C18_encode.
Theorem C18_too_long_rejected : forall u v x, num_of v = Some x -> (37800 < x)%Q -> exists e, build_msg (TT u) v = Err e.
Proof.
  intros u v x Hv Hx. destruct (pick_spec v x Hv ltac:(lra)) as [[H _]|(r & (Hr & Ht & _) & _)].
  - unfold build_msg, TT. rewrite build_adapt. cbn [encode]. unfold transition_encode. rewrite Hv. cbv zeta. rewrite H. cbn [bind]. eauto.
  - exfalso. assert (r = 0 \/ r = 1 \/ r = 2 \/ r = 3) as Hc by lia.
    assert (top r <= 37800)%Q by (destruct Hc as [->|[->|[->| ->]]]; vm_compute; discriminate). lra.
Qed.
Print Assumptions C18_too_long_rejected.
Theorem C18_decode : forall u b, isbyte b ->
  parse_msg (TT u) [b] = Ok (if b / 64 =? 0 then VFloat (rnd64 (inject_Z (b mod 64) * unit_of 0)) else VInt (b mod 64 * Qnum (unit_of (b / 64)))).
Proof.
  intros u b Hb. unfold parse_msg, TT. rewrite parse_adapt, (parse_steps [] b [] Hb (Forall_nil _)). cbn [bind decode transition_decode].
  unfold dgetr. cbn [dget String.eqb Ascii.eqb Bool.eqb bind as_int]. unfold isbyte in Hb.
  assert (0 <= b / 64 < 4) by (split; [apply Z.div_pos; lia|apply Z.div_lt_upper_bound; lia]).
  pose proof (Z.mod_pos_bound b 64).
  assert (b / 64 = 0 \/ b / 64 = 1 \/ b / 64 = 2 \/ b / 64 = 3) as [E|[E|[E|E]]] by lia; rewrite E; cbn [step_resolution Z.eqb Pos.eqb times bind]; try reflexivity.
  unfold fmul. rewrite fz_small by lia. reflexivity.
Qed.
Print Assumptions C18_decode.
Example C18_ex : num_of (VFloat (613 # 8)) = Some (613 # 8)%Q /\ finest (613 # 8) 2 /\ build_msg (TT false) (VFloat (613 # 8)) = Ok [64 * 2 + 7].
Proof. split; [reflexivity|]. split; [|vm_compute; reflexivity]. split; [lia|]. split; [vm_compute; discriminate|]. intros _. vm_compute. reflexivity. Qed.

(** ** C19: decoded times are fixed points, with the exact list of exceptions *)
Definition refix (u : bool) (b : Z) : bool :=
  match parse_msg (TT u) [b] with
  | Ok v => match num_of v, build_msg (TT u) v with
            | Some x, Ok [b'] => match parse_msg (TT u) [b'] with
                                 | Ok v' => match num_of v' with Some x' => Qeq_bool x x' | None => false end
                                 | _ => false
                                 end
            | _, _ => false
            end
  | _ => false
  end.
Lemma refix_checked : forallb (fun b => (b =? 43) || refix true b) (upto 256)
  && forallb (fun b => (b =? 43) || (b mod 64 =? 63) || refix false b) (upto 256) = true.
Proof. vm_compute. reflexivity. Qed.
Theorem C19_fixed_points : forall (u : bool) b, isbyte b -> b <> 43 -> (u = true \/ b mod 64 <> 63) ->
  exists v b' v' x, parse_msg (TT u) [b] = Ok v /\ build_msg (TT u) v = Ok [b'] /\ parse_msg (TT u) [b'] = Ok v'
    /\ num_of v = Some x /\ exists x', num_of v' = Some x' /\ (x == x')%Q.
Proof.
  intros u b Hb H43 Hu. unfold isbyte in Hb. assert (Hi : 0 <= b < Z.of_nat 256) by lia. pose proof refix_checked as C. apply andb_prop in C as [C1 C2].
  assert (R : refix u b = true).
  { destruct u.
    - pose proof (forallb_upto _ _ C1 b Hi) as F; clear C1 C2; cbv beta in F.
      apply orb_prop in F as [F|F]; [apply Z.eqb_eq in F; contradiction|exact F].
    - pose proof (forallb_upto _ _ C2 b Hi) as F; clear C1 C2; cbv beta in F.
      apply orb_prop in F as [F|F]; [apply orb_prop in F as [F|F]; apply Z.eqb_eq in F|exact F]; [contradiction|]. destruct Hu; [discriminate|contradiction]. }
  unfold refix in R. destruct (parse_msg (TT u) [b]) as [v|e|] eqn:E1; [|discriminate R|discriminate R].
  destruct (num_of v) as [x|] eqn:E2; [|discriminate R]. destruct (build_msg (TT u) v) as [l|e|] eqn:E3; [|discriminate R|discriminate R].
  destruct l as [|b' [|? ?]]; [discriminate R| |discriminate R].
  destruct (parse_msg (TT u) [b']) as [v'|e|] eqn:E4; [|discriminate R|discriminate R]. destruct (num_of v') as [x'|] eqn:E5; [|discriminate R].
  apply Qeq_bool_iff in R. exists v, b', v', x. repeat split; auto. eauto.
Qed.
Print Assumptions C19_fixed_points.
(** 43 steps of 100 ms come back as 42 *)
Theorem C19_43_refuted : exists v, parse_msg (TT true) [43] = Ok v /\ build_msg (TT true) v = Ok [42] /\ build_msg (TT false) v = Ok [42].
Proof. eexists. split; [vm_compute; reflexivity|]. split; vm_compute; reflexivity. Qed.
Print Assumptions C19_43_refuted.
Example C19_ex : exists v, parse_msg (TT false) [77] = Ok v /\ num_of v = Some 13%Q /\ build_msg (TT false) v = Ok [77].
Proof. eexists. split; [vm_compute; reflexivity|]. split; vm_compute; reflexivity. Qed.
(** decimal literals: of the 64 multiples of 0.1 s exactly these lose a step *)
Theorem C19_literals : forall s, 0 <= s <= 62 ->
  (~ In s lossy_steps -> build_msg (TT true) (VFloat (rnd64 (s # 10))) = Ok [s]) /\
  (In s lossy_steps -> build_msg (TT true) (VFloat (rnd64 (s # 10))) = Ok [s - 1]).
Proof.
  assert (C : forallb (fun s => match build_msg (TT true) (VFloat (rnd64 (s # 10))) with
                               | Ok [b] => b =? (if zmem s lossy_steps then s - 1 else s) | _ => false end) (upto 63) = true) by (vm_compute; reflexivity).
  intros s Hs. assert (Hi : 0 <= s < Z.of_nat 63) by (clear C; lia). pose proof (forallb_upto _ _ C s Hi) as F; clear C; cbv beta in F.
  destruct (build_msg (TT true) (VFloat (rnd64 (s # 10)))) as [[|b [|? ?]]|e|]; [discriminate F| |discriminate F..]. apply Z.eqb_eq in F. subst b.
  destruct (zmem s lossy_steps) eqn:E.
  - apply zmem_in in E. split; [contradiction|auto].
  - split; [auto|]. intros H. apply zmem_in in H. congruence.
Qed.
Print Assumptions C19_literals.

(** ** C20: the "unknown" value (63 steps).  Building refuses it where the message forbids it ... *)
Theorem C20_build : forall b, isbyte b -> b mod 64 = 63 -> exists v,
  parse_msg (TT true) [b] = Ok v /\ build_msg (TT true) v = Ok [b] /\ exists e, build_msg (TT false) v = Err e.
Proof.
  assert (C : forallb (fun b => match parse_msg (TT true) [b] with
      | Ok v => match build_msg (TT true) v, build_msg (TT false) v with Ok [b'], Err _ => b' =? b | _, _ => false end | _ => false end) [63; 127; 191; 255] = true) by (vm_compute; reflexivity).
  intros b Hb H63. unfold isbyte in Hb.
  assert (In b [63; 127; 191; 255]) as Hi. { clear C. pose proof (Z.div_mod b 64). assert (0 <= b / 64 < 4) by (split; [apply Z.div_pos; lia|apply Z.div_lt_upper_bound; lia]). simpl. lia. }
  pose proof (proj1 (forallb_forall _ _) C b Hi) as F. cbv beta in F.
  destruct (parse_msg (TT true) [b]) as [v|e|]; [|discriminate F..]. exists v. split; [reflexivity|].
  destruct (build_msg (TT true) v) as [[|b' [|? ?]]|e|]; [discriminate F| |discriminate F..]. destruct (build_msg (TT false) v) as [?|e|]; [discriminate F| |discriminate F].
  apply Z.eqb_eq in F. subst b'. eauto.
Qed.
Print Assumptions C20_build.
(** ... but parsing accepts it there, so such a message cannot be rebuilt *)
Theorem C20_parse_refuted : exists v, parse_msg (TT false) [63] = Ok v /\ exists e, build_msg (TT false) v = Err e.
Proof. eexists. split; [vm_compute; reflexivity|]. eexists. vm_compute. reflexivity. Qed.
Print Assumptions C20_parse_refuted.
(** ... and times between 62.51 and 63 steps are refused although the next resolution holds them *)
Theorem C20_gap : forall v x r, num_of v = Some x -> 0 <= r < 3 -> finest x r -> ((6251 # 100) * unit_of r <= x)%Q ->
  exists e, build_msg (TT false) v = Err e.
Proof.
  intros v x r Hv Hr Hf Hx. pose proof (unit_pos r ltac:(lia)) as Hu. pose proof Hf as (_ & Ht & Hlow).
  assert (Hm : (x <= 37800)%Q).
  { eapply Qle_trans; [exact Ht|]. assert (r = 0 \/ r = 1 \/ r = 2) as [->|[->| ->]] by lia; vm_compute; discriminate. }
  destruct (C18_encode false v x Hv ltac:(lra) Hm) as (r' & s & Hf' & _ & _ & _ & _ & He). apply He; [reflexivity|].
  assert (r' = r) as ->; [|exact Hx].
  assert (Mono : forall a b, 0 <= a -> a <= b < 4 -> (top a <= top b)%Q).
  { intros a b H1 H2. assert (a = b \/ (a = 0 \/ a = 1 \/ a = 2) /\ (b = 1 \/ b = 2 \/ b = 3)) as Hc by lia.
    destruct Hc as [->|[[->|[->| ->]] [->|[->| ->]]]]; try apply Qle_refl; try lia; vm_compute; discriminate. }
  destruct Hf' as (Hr' & Ht' & Hl'). destruct (Z.lt_total r r') as [L|[L|L]]; [|auto|]; exfalso.
  - specialize (Hl' ltac:(lia)). pose proof (Mono r (r' - 1) ltac:(lia) ltac:(lia)). lra.
  - specialize (Hlow ltac:(lia)). pose proof (Mono r' (r - 1) ltac:(lia) ltac:(lia)). lra.
Qed.
Print Assumptions C20_gap.
Example C20_gap_ex : exists v x, num_of v = Some x /\ finest x 1 /\ ((6251 # 100) * unit_of 1 <= x)%Q /\ v = VInt 63.
Proof.
  exists (VInt 63), (inject_Z 63). split; [reflexivity|]. split; [|split; [vm_compute; discriminate|reflexivity]].
  split; [lia|]. split; [vm_compute; discriminate|]. intros _. vm_compute. reflexivity.
Qed.

(** ** C21: delays, in units of 5 ms *)
Definition Delay : con := CAdapt ADelay Int8ul.
Theorem C21_decode : forall b, isbyte b -> parse_msg Delay [b] = Ok (VFloat (rnd64 (b # 200))).
Proof.
  intros b Hb. unfold parse_msg, Delay. rewrite parse_adapt, parse_u1. cbn [bind decode]. unfold delay_decode. cbn [as_intr as_int bind].
  do 2 f_equal. apply rnd64_comp. unfold Qeq, Qdiv, Qmult, Qinv, inject_Z; cbn. lia.
Qed.
Print Assumptions C21_decode.
Theorem C21_encode : forall x, (0 <= x)%Q -> (200 * x * (1 + (1 # 2 ^ 53)) < 256)%Q -> exists s, build_msg Delay (VFloat x) = Ok [s] /\ 0 <= s <= 255
   /\ (inject_Z s <= 200 * x * (1 + (1 # 2 ^ 53)))%Q /\ (200 * x < inject_Z s + 1)%Q.
Proof.
  intros x H0 H1. unfold build_msg, Delay. rewrite build_adapt. cbn [encode]. unfold delay_encode. cbn [as_int bind].
  change (1 # 2 ^ 53)%Q with (1 # 9007199254740992)%Q in *.
  destruct (trunc_div (x * 200) ltac:(lra) ltac:(eapply Qle_trans with (y := 256%Q); [lra|vm_compute; discriminate])) as (A & B & C).
  exists (ftrunc (rnd64 (x * 200))). unfold fmul. change (1 # 2 ^ 53)%Q with (1 # 9007199254740992)%Q in *. set (s := ftrunc (rnd64 (x * 200))) in *.
  assert (Hs : s <= 255). { assert (inject_Z s < inject_Z 256)%Q by (change (inject_Z 256) with 256%Q; lra). rewrite <- Zlt_Qlt in H. lia. }
  split; [apply build_u1; lia|]. split; [lia|]. split; lra.
Qed.
Print Assumptions C21_encode.
Theorem C21_too_long_rejected : forall x, (256 # 200 <= x)%Q -> exists e, build_msg Delay (VFloat x) = Err e.
Proof.
  intros x Hx. unfold build_msg, Delay. rewrite build_adapt. cbn [encode]. unfold delay_encode. cbn [as_int bind]. unfold fmul.
  assert (G : (inject_Z 256 <= rnd64 (x * 200))%Q) by (apply rnd64_ge_int; [lia|]; change (inject_Z 256) with 256%Q; lra).
  destruct (trunc_spec (x * 200) ltac:(lra)) as (A & B & C). set (s := ftrunc (rnd64 (x * 200))) in *.
  assert (256 <= s). { assert (inject_Z 256 < inject_Z (s + 1))%Q by (rewrite inject_Z_plus; change (inject_Z 1) with 1%Q; lra). rewrite <- Zlt_Qlt in H. lia. }
  cbn [build as_intr as_int bind]. unfold int_min, int_max. change (2 ^ (8 * Z.of_nat 1) - 1) with 255.
  destruct (Z.leb_spec s 255); [lia|]. rewrite andb_false_r. eauto.
Qed.
Print Assumptions C21_too_long_rejected.
(** a decoded delay re-encodes to its octet, except for these 18 values, which lose one unit *)
Theorem C21_reencode : forall b, isbyte b -> exists v, parse_msg Delay [b] = Ok v /\
  (~ In b lossy_delays -> build_msg Delay v = Ok [b]) /\ (In b lossy_delays -> build_msg Delay v = Ok [b - 1]).
Proof.
  assert (C : forallb (fun b => match build_msg Delay (VFloat (rnd64 (b # 200))) with
                               | Ok [b'] => b' =? (if zmem b lossy_delays then b - 1 else b) | _ => false end) (upto 256) = true) by (vm_compute; reflexivity).
  intros b Hb. exists (VFloat (rnd64 (b # 200))). split; [now apply C21_decode|]. unfold isbyte in Hb.
  assert (Hi : 0 <= b < Z.of_nat 256) by (clear C; lia). pose proof (forallb_upto _ _ C b Hi) as F; clear C; cbv beta in F.
  destruct (build_msg Delay (VFloat (rnd64 (b # 200)))) as [[|b' [|? ?]]|e|]; [discriminate F| |discriminate F..]. apply Z.eqb_eq in F. subst b'.
  destruct (zmem b lossy_delays) eqn:E.
  - apply zmem_in in E. split; [contradiction|auto].
  - split; [auto|]. intros H. apply zmem_in in H. congruence.
Qed.
Print Assumptions C21_reencode.
(** whole seconds *)
Theorem C21_whole_seconds : forall z, (0 <= z <= 1 -> build_msg Delay (VInt z) = Ok [200 * z]) /\ (z < 0 \/ 1 < z -> exists e, build_msg Delay (VInt z) = Err e).
Proof.
  intros z. unfold build_msg, Delay. rewrite build_adapt. cbn [encode]. unfold delay_encode. cbn [as_int bind].
  split; [intros H; assert (D : z = 0 \/ z = 1) by lia; destruct D as [-> | ->]; reflexivity|].
  intros H. cbn [build as_intr as_int bind]. unfold int_min, int_max. change (2 ^ (8 * Z.of_nat 1) - 1) with 255. change (- 2 ^ (8 * Z.of_nat 1 - 1)) with (-128).
  match goal with |- context [if ?b then _ else _] => destruct b eqn:E end; [|eauto]. exfalso. cbn in E. lia.
Qed.
Print Assumptions C21_whole_seconds.
Example C21_ex : lossy_delays = [29; 57; 58; 113; 114; 115; 116; 201; 203; 205; 207; 226; 228; 230; 232; 251; 253; 255]
  /\ build_msg Delay (VFloat (1 # 4)) = Ok [50].
Proof. split; reflexivity. Qed.

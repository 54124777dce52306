(** * Conform: a tactic that shows that a concrete object is a well-formed message
    (used for the non-vacuity examples), and access to the adapters' domains. *)
From Coq Require Import Lqa.
From Verif Require Import PyVal Bits Float64 Utf8 Adapters Construct Size Spec Master
  AdapterSpec AdapterProofs1 AdapterProofs4 Access AccessProofs.

Lemma ex_enum t n z v : by_value t z = Some (VEnum n z) -> as_int v = Some z ->
  A_spec (AEnum t) v (VEnum n z) (VInt z) (VEnum n z).
Proof. intros H Hv. exists n, z. split; [now apply by_value_member|]. repeat split; auto. Qed.
Lemma ex_transition_int u v z r s : as_int v = Some z -> z = s * (if r =? 1 then 1 else if r =? 2 then 10 else 600) ->
  1 <= r <= 3 -> 0 <= s <= 62 -> (if r =? 1 then 7 else if r =? 2 then 64 else 631) <= z ->
  A_spec (ATransition u) v (VDict [("steps"%string, VInt s); ("resolution"%string, VInt r)])
    (VDict [("resolution"%string, VInt r); ("steps"%string, VInt s)]) (VInt z).
Proof.
  intros Hv Hz Hr Hs Hm.
  assert (r = 1 \/ r = 2 \/ r = 3) as Hc by lia.
  exists (inject_Z z), r, s. eexists. split; [destruct v; try discriminate; injection Hv as <-; reflexivity|].
  destruct Hc as [-> | [-> | ->]]; cbn [Z.eqb Pos.eqb] in *; subst z;
    (split; [split; [lia|]; cbn [Z.eqb Pos.eqb step_size]; split; [lia|]; unfold Qle, Qminus, Qdiv; simpl; lia |
     split; [intros _; split; [lia|]; unfold Qle; simpl; lia|]; repeat split]).
Qed.
Lemma ex_transition_tenth u v x s : num_of v = Some x -> (x == inject_Z s * (1#10) + (1#100))%Q -> 0 <= s <= 62 ->
  A_spec (ATransition u) v (VDict [("steps"%string, VInt s); ("resolution"%string, VInt 0)])
    (VDict [("resolution"%string, VInt 0); ("steps"%string, VInt s)]) (VFloat (rnd64 (inject_Z s * flit 1 10))).
Proof.
  intros Hv Hx Hs. exists x, 0, s. eexists. split; [exact Hv|]. split.
  - split; [lia|]. cbn [Z.eqb]. left. split; [|lia]. split; lra.
  - split; [|repeat split]. intros _. split; [lia|]. unfold step_size; cbn [Z.eqb]. assert (inject_Z s <= 62)%Q by (change (inject_Z s <= inject_Z 62)%Q; rewrite <- Zle_Qle; lia). lra.
Qed.
Lemma ex_delay v x z : num_of v = Some x -> (x == rnd64 (z # 200))%Q -> 0 <= z <= 255 -> ~ In z lossy_delays ->
  A_spec ADelay v (VInt z) (VInt z) (VFloat (rnd64 (z # 200))).
Proof. intros Hv Hx Hz Hl. exists x, z. split; [exact Hv|]. split; [lia|]. split; [right; auto|]. repeat split. Qed.


(** introduction rules *)
Section Intro.
Variable A : adapter -> val -> val -> val -> val -> Prop.
Lemma ci_int n sg dl eb ep v z : as_int v = Some z -> fits (8 * Z.of_nat n) sg z -> conf A (CInt n sg) dl eb ep v (VInt z).
Proof. exists z; auto. Qed.
Lemma ci_bytesint n sw dl eb ep v z : as_int v = Some z -> fits (8 * Z.of_nat n) false z -> conf A (CBytesInt n sw) dl eb ep v (VInt z).
Proof. exists z; auto. Qed.
Lemma ci_bits n sg dl eb ep v z : as_int v = Some z -> fits (Z.of_nat n) sg z -> conf A (CBits n sg) dl eb ep v (VInt z).
Proof. exists z; auto. Qed.
Lemma ci_flag dl eb ep v b : truthy v = b -> conf A CFlag dl eb ep v (VBool b).
Proof. intros <-. reflexivity. Qed.
Lemma ci_bytes n dl eb ep l : bytes l -> length l = n -> conf A (CBytes n) dl eb ep (VBytes l) (VBytes l).
Proof. exists l; auto. Qed.
Lemma ci_greedybytes eb ep l : bytes l -> conf A CGreedyBytes false eb ep (VBytes l) (VBytes l).
Proof. split; auto. exists l; auto. Qed.
Lemma ci_struct fs dl eb ep d d' : conf_fields A fs dl d [] d d' -> conf A (CStruct fs) dl eb ep (VDict d) (VDict d').
Proof. exists d, d'; auto. Qed.
Lemma ci_bitwise c dl eb ep v v' : conf A c dl eb ep v v' -> conf A (CBitwise c) dl eb ep v v'.
Proof. auto. Qed.
Lemma ci_bytewise c dl eb ep v v' : conf A c dl eb ep v v' -> conf A (CBytewise c) dl eb ep v v'.
Proof. auto. Qed.
Lemma ci_reversed n c dl eb ep v v' : conf A c false eb ep v v' -> conf A (CReversed n c) dl eb ep v v'.
Proof. auto. Qed.
Lemma ci_adapt a c dl eb ep v v' w w' : A a v w w' v' -> conf A c dl eb ep w w' -> conf A (CAdapt a c) dl eb ep v v'.
Proof. intros H1 H2. exists w, w'. split; auto. Qed.
Lemma ci_select1 c l dl eb ep v v' : conf A c dl eb ep v v' -> conf A (CSelect (ACons c l)) dl eb ep v v'.
Proof. left. auto. Qed.
Lemma ci_select2 c1 c2 l dl eb ep v v' : conf A c2 dl eb ep v v' -> excl dl c1 c2 v ->
  conf A (CSelect (ACons c1 (ACons c2 l))) dl eb ep v v'.
Proof. right. left. auto. Qed.
Lemma ci_named name c dl eb ep d d' : dget name d = None -> conf A c dl eb ep (VDict d) (VDict d') ->
  conf A (CNamed name c) dl eb ep (VDict d) (VDict d').
Proof. intros H1 H2. exists d, d'. rewrite H1. auto. Qed.
Lemma ci_fnil dl eb ep obj : conf_fields A FNil dl eb ep obj ep.
Proof. reflexivity. Qed.
Lemma ci_fcons k c fs dl eb ep obj d' x x' : dget k obj = Some x ->
  conf A c (match fs with FNil => dl | _ => true end) eb ep x x' ->
  conf_fields A fs dl (dset k x eb) (dset k x' ep) obj d' -> conf_fields A (FCons k c fs) dl eb ep obj d'.
Proof. intros H1 H2 H3. exists x, x'. auto. Qed.
Lemma ci_fpad n fs dl eb ep obj d' : conf_fields A fs dl eb ep obj d' -> conf_fields A (FPad None n fs) dl eb ep obj d'.
Proof. auto. Qed.
Lemma ci_case z cs dl eb ep v v' n c : find_case z cs = Some (n, c) -> conf A c dl eb ep v v' -> conf_case A z cs dl eb ep v v'.
Proof.
  induction cs as [|m w c' cs IH]; simpl; [discriminate|]. destruct (z =? w); [|exact IH]. intros [= <- <-] H. exact H.
Qed.
Lemma ci_switchstruct k t sw cs dl eb ep d op z n x x' c d' m : dget k d = Some op -> as_int op = Some z ->
  by_value t z = Some (VEnum n z) -> legal_opcode z ->
  dget (lower n) d = Some x \/ dget (lower n) d = None /\ dget sw d = Some x ->
  find_case z cs = Some (m, c) -> conf A c dl [(k, VEnum n z); (sw, x)] [(k, VEnum n z)] x x' ->
  d' = dset (lower n) x' [(k, VEnum n z)] ->
  conf A (CSwitchStruct k (COpcode t) t sw cs) dl eb ep (VDict d) (VDict d').
Proof.
  intros H1 H2 H3 H4 H5 H6 H7 ->. exists d, op, z, n, x, x'. split; [reflexivity|]. do 3 (split; [assumption|]).
  split; [assumption|]. split; [exists z; auto|]. split; [eapply ci_case; eauto|reflexivity].
Qed.
End Intro.

Ltac notin := let H := fresh in intros H; simpl in H; repeat (destruct H as [H|H]; [discriminate H|]); exact H.
Ltac memb := apply by_value_member; vm_compute; reflexivity.
(** structural steps; stops at adapters and at choices between alternatives *)
Ltac cf1 :=
  lazymatch goal with
  | |- message _ _ _ _ => unfold message
  | |- fits _ _ _ => unfold fits; simpl; lia
  | |- legal_opcode _ => unfold legal_opcode; lia
  | |- bytes _ => repeat constructor; unfold isbyte; lia
  | |- A_spec (AEnum _) _ _ _ _ => apply ex_enum; reflexivity
  | |- conf_fields _ FNil _ _ _ _ _ => apply ci_fnil
  | |- conf_fields _ (FPad None _ _) _ _ _ _ _ => apply ci_fpad
  | |- conf_fields _ (FCons _ _ _) _ _ _ _ _ => eapply ci_fcons; [reflexivity| |]
  | |- conf _ ?c _ _ _ _ _ =>
      let c' := eval hnf in c in change c with c';
      lazymatch c' with
      | CInt _ _ => eapply ci_int; [reflexivity|]
      | CBytesInt _ _ => eapply ci_bytesint; [reflexivity|]
      | CBits _ _ => eapply ci_bits; [reflexivity|]
      | CFlag => apply ci_flag; reflexivity
      | CBytes _ => apply ci_bytes; [|reflexivity]
      | CGreedyBytes => apply ci_greedybytes
      | CStruct _ => eapply ci_struct
      | CBitwise _ => apply ci_bitwise
      | CBytewise _ => apply ci_bytewise
      | CReversed _ _ => apply ci_reversed
      | CAdapt _ _ => eapply ci_adapt
      | CNamed _ _ => eapply ci_named; [reflexivity|]
      | CSwitchStruct _ _ _ _ _ =>
          eapply ci_switchstruct; [reflexivity | reflexivity | reflexivity | | first [left; reflexivity | right; split; reflexivity]
                                  | reflexivity | | reflexivity]
      end
  end.
Ltac cf := repeat cf1.

(** * P_transmit: which messages carry a transmit count and interval, and in which unit (C26). *)
From Coq Require Import Lia.
From Verif Require Import PyVal Bits Adapters Construct Size Access AccessProofs Uses Deps Doc G_config P_layout P_params P_field.
Local Open Scope list_scope.
Local Open Scope Z_scope.

(** Both network transmit messages are the octet alone, in steps of 10 ms. *)
Definition network_transmit : list (string * Z) := [("CONFIG_NETWORK_TRANSMIT_SET", 0x8024); ("CONFIG_NETWORK_TRANSMIT_STATUS", 0x8025)]%string.
Lemma network_rows : forallb (fun q => existsb (fun p => String.eqb (fst (fst p)) (fst q) && Z.eqb (snd (fst p)) (snd q) && match snd p with CAdapt (ARetransmit iv) w => Z.eqb iv 10 && con_eqb w config_Retransmit | _ => false end) params) network_transmit = true.
Proof. vm_compute. reflexivity. Qed.
Lemma network_params n z : In (n, z) network_transmit -> In (n, z, Retransmit 10) params.
Proof.
  pose proof network_rows as R. revert R. generalize params network_transmit. intros l q R Hin. rewrite forallb_forall in R. specialize (R _ Hin).
  apply existsb_exists in R as ([[m w] c] & Hp & E). cbn [fst snd] in E. apply andb_prop in E as [E E3]. apply andb_prop in E as [E1 E2].
  apply String.eqb_eq in E1. apply Z.eqb_eq in E2. destruct c as [| | | | | | | | | | | | | | | | | |a w0| | | | | | | | | |]; try discriminate. destruct a; try discriminate.
  apply andb_prop in E3 as [E3 E4]. apply Z.eqb_eq in E3. apply con_eqb_spec in E4. now subst.
Qed.
Theorem C26_network_sent : forall n z o m op d c i cn s, In (n, z) network_transmit -> opcode_bytes z o ->
  dget "opcode" m = Some op -> as_int op = Some z -> dget (lower n) m = Some (VDict d) ->
  dget "count" d = Some c -> as_int c = Some cn -> 0 <= cn <= 7 -> dget "interval" d = Some i -> as_int i = Some ((s + 1) * 10) -> 0 <= s <= 31 ->
  access_build (VDict m) = Ok (o ++ [8 * s + cn]).
Proof.
  intros n z o m op d c i cn s Hn Ho H1 H2 H3 Hc Hcn R Hi Hs Rs. rewrite (C49_message_build _ _ _ _ _ _ _ (network_params _ _ Hn) Ho H1 H2 H3).
  rewrite (C26_build 10 d c cn i s ltac:(lia) Hc Hcn R Hi Hs Rs). reflexivity.
Qed.
Theorem C26_network_refused : forall n z o m op d c i cn t, In (n, z) network_transmit -> opcode_bytes z o ->
  dget "opcode" m = Some op -> as_int op = Some z -> dget (lower n) m = Some (VDict d) ->
  dget "count" d = Some c -> as_int c = Some cn -> dget "interval" d = Some i -> as_int i = Some t ->
  ~ (0 <= cn <= 7 /\ exists s, 0 <= s <= 31 /\ t = (s + 1) * 10) -> exists e, access_build (VDict m) = Err e.
Proof.
  intros n z o m op d c i cn t Hn Ho H1 H2 H3 Hc Hcn Hi Ht N. rewrite (C49_message_build _ _ _ _ _ _ _ (network_params _ _ Hn) Ho H1 H2 H3).
  destruct (C26_reject 10 d c cn i t ltac:(lia) Hc Hcn Hi Ht N) as (e & ->). cbn [bind]. eauto.
Qed.
Theorem C26_network_received : forall n z o b, In (n, z) network_transmit -> opcode_bytes z o -> isbyte b ->
  access_parse (o ++ [b]) = Ok (VDict [("opcode"%string, VEnum n z); (lower n, VDict [("count"%string, VInt (b mod 8)); ("interval"%string, VInt ((b / 8 + 1) * 10))])]).
Proof. intros n z o b Hn Ho B. rewrite (C49_message_parse _ _ _ _ _ (network_params _ _ Hn) Ho), (C26_parse 10 b B). reflexivity. Qed.

(** Elsewhere it is a field: [RelayRetransmit] (10 ms) and [PublishRetransmit] (50 ms) in the tables of P_layout.v (C52). *)

(** Non-vacuity. *)
Example C26_network_example :
  access_build (VDict [("opcode"%string, VInt 0x8024); ("config_network_transmit_set"%string, VDict [("count"%string, VInt 5); ("interval"%string, VInt 30)])]) = Ok [0x80; 0x24; 21] /\
  access_parse [0x80; 0x25; 21] = Ok (VDict [("opcode"%string, VEnum "CONFIG_NETWORK_TRANSMIT_STATUS" 0x8025);
    ("config_network_transmit_status"%string, VDict [("count"%string, VInt 5); ("interval"%string, VInt 30)])]).
Proof.
  split.
  - change [0x80; 0x24; 21] with ([0x80; 0x24] ++ [8 * 2 + 5]).
    eapply (C26_network_sent "CONFIG_NETWORK_TRANSMIT_SET" 0x8024); [left; reflexivity | apply (ob2 0x80 0x24); lia | reflexivity.. | lia | reflexivity | reflexivity | lia].
  - exact (C26_network_received "CONFIG_NETWORK_TRANSMIT_STATUS" 0x8025 [0x80; 0x25] 21 (or_intror (or_introl eq_refl)) (ob2 0x80 0x25 ltac:(lia) ltac:(lia)) ltac:(unfold isbyte; lia)).
Qed.
Print Assumptions C26_network_sent.
Print Assumptions C26_network_refused.
Print Assumptions C26_network_received.

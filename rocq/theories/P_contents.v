(** * P_contents: the opcodes of the messages whose contents are the subject of C32, C33 (time), C40-C42 (sensor data and
      descriptors) and C44 (sensor settings). *)
From Coq Require Import Lia.
From Verif Require Import PyVal Bits Adapters Construct Access AccessProofs Deps Doc G_time G_sensor P_layout P_params.
Local Open Scope list_scope.
Local Open Scope Z_scope.

Definition contents : list (string * Z * con) :=
  [("SENSOR_DESCRIPTOR_STATUS", 0x51, sensor_SensorDescriptorStatus); ("SENSOR_STATUS", 0x52, sensor_SensorStatus);
   ("SENSOR_SETTING_SET", 0x59, sensor_SensorSettingSet); ("SENSOR_SETTING_SET_UNACKNOWLEDGED", 0x5A, sensor_SensorSettingSet);
   ("SENSOR_SETTING_STATUS", 0x5B, sensor_SensorSettingStatus); ("TIME_SET", 0x5C, time_TimeStatus); ("TIME_STATUS", 0x5D, time_TimeStatus)]%string.
Lemma contents_at : map (fun i => nth_error params i) [149; 151; 156; 157; 158; 161; 162]%nat = map Some contents.
Proof. vm_compute. reflexivity. Qed.
Lemma rows_in {A} (l : list A) is rs : map (fun i => nth_error l i) is = map Some rs -> forall x, In x rs -> In x l.
Proof.
  revert rs. induction is as [|i is IH]; intros [|r rs] E x Hx; try discriminate; [destruct Hx|]. injection E as E1 E2. destruct Hx as [<- | Hx]; [eapply nth_error_In; exact E1 | eauto].
Qed.
Lemma contents_in n z c : In (n, z, c) contents -> In (n, z, c) params.
Proof. apply (rows_in _ _ _ contents_at). Qed.
(** What C32-C44 say of the contents holds of the whole message: the opcode octets, then the contents. *)
Theorem C49_contents_sent : forall n z c o m op x, In (n, z, c) contents -> opcode_bytes z o ->
  dget "opcode" m = Some op -> as_int op = Some z -> dget (lower n) m = Some x ->
  access_build (VDict m) = let* p := build_msg c x in Ok (o ++ p).
Proof. intros n z c o m op x H. exact (C49_message_build n z c o m op x (contents_in n z c H)). Qed.
Theorem C49_contents_received : forall n z c o p, In (n, z, c) contents -> opcode_bytes z o ->
  access_parse (o ++ p) = let* u := parse_msg c p in Ok (VDict [("opcode"%string, VEnum n z); (lower n, u)]).
Proof. intros n z c o p H. exact (C49_message_parse n z c o p (contents_in n z c H)). Qed.
(** Non-vacuity: a time status of five zero octets, "time unknown". *)
Example C49_contents_example : access_parse ([0x5D] ++ [0; 0; 0; 0; 0]) =
  let* u := parse_msg time_TimeStatus [0; 0; 0; 0; 0] in Ok (VDict [("opcode"%string, VEnum "TIME_STATUS" 0x5D); ("time_status"%string, u)]).
Proof. apply (C49_contents_received "TIME_STATUS" 0x5D time_TimeStatus); [do 6 right; left; reflexivity | apply ob1; lia]. Qed.
Print Assumptions C49_contents_sent.
Print Assumptions C49_contents_received.

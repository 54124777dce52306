(** * P_gateway: the configuration of the gateway (C59). *)
From Coq Require Import Lia.
From Verif Require Import PyVal Bits Utf8 Adapters Construct Size Spec Master AdapterSpec AdapterProofs1 AdapterProofs2 Access AccessProofs BitLayout Codes P_codes Grammar GrammarProofs GrammarAccept
  G_gateway P_layout P_params P_field P_text P_optional.
Local Open Scope list_scope.
Local Open Scope Z_scope.
Local Open Scope string_scope.

(** ** Specification *)
(** what an object gives: a number of n octets, six octets written as a MAC address, four as an IPv4 address, a text in n octets *)
Definition has_number (d : dict) (k : string) (n : nat) (z : Z) : Prop := exists x, dget k d = Some x /\ as_int x = Some z /\ 0 <= z < 256 ^ Z.of_nat n.
Definition has_mac (d : dict) (k : string) (a : list Z) : Prop := exists t, dget k d = Some (VStr t) /\ mac_text t a /\ length a = 6%nat.
Definition has_ip (d : dict) (k : string) (a : list Z) : Prop := dget k d = Some (VStr (dotted a)) /\ bytes a /\ length a = 4%nat.
Definition has_text (d : dict) (k : string) (n : nat) (s : list Z) : Prop :=
  exists t l, dget k d = Some (VStr t) /\ utf8_encode t = Some l /\ (length l <= n)%nat /\ s = (l ++ repeat 0 (n - length l))%list.
Definition has_code (d : dict) (k : string) (t : codes) (z : Z) : Prop := exists m, In (m, z) t /\ dget k d = Some (VEnum m z).
(** the part every configuration has: MTU, MAC address, port, reconnect interval, length and address of the server *)
Definition common_sent (d : dict) (s : list Z) : Prop := exists mtu mac port iv n a,
  has_number d "mtu_size" 2 mtu /\ has_mac d "mac_address" mac /\ has_number d "server_port_number" 2 port /\ has_number d "reconnect_interval" 2 iv /\
  has_number d "server_address_length" 1 n /\ has_text d "server_address" (Z.to_nat n) a /\ s = (to_le 2 mtu ++ mac ++ to_le 2 port ++ to_le 2 iv ++ [n] ++ a)%list.
(** the addresses for a static configuration *)
Definition static_sent (d : dict) (s : list Z) : Prop := exists dns ip gw mask,
  has_ip d "dns_ip_address" dns /\ has_ip d "ip_address" ip /\ has_ip d "gateway_ip_address" gw /\ has_number d "netmask" 1 mask /\ s = (dns ++ ip ++ gw ++ [mask])%list.

(** the octets of a text, and the text: NULs at the end do not count *)
Definition text_received (a : list Z) (v : val) : Prop := exists t l k, v = VStr t /\ a = (l ++ repeat 0 k)%list /\ last l 1 <> 0 /\ utf8_encode t = Some l.
Definition common_received (s : list Z) (e : dict) : Prop := exists mtu mac port iv a t v,
  0 <= mtu < 65536 /\ 0 <= port < 65536 /\ 0 <= iv < 65536 /\ bytes mac /\ length mac = 6%nat /\ (length a < 256)%nat /\ mac_text t mac /\ lower_mac t /\ text_received a v /\
  s = (to_le 2 mtu ++ mac ++ to_le 2 port ++ to_le 2 iv ++ [Z.of_nat (length a)] ++ a)%list /\
  e = [("mtu_size", VInt mtu); ("mac_address", VStr t); ("server_port_number", VInt port); ("reconnect_interval", VInt iv);
       ("server_address_length", VInt (Z.of_nat (length a))); ("server_address", v)].
Definition static_received (s : list Z) (e : dict) : Prop := exists dns ip gw mask, length dns = 4%nat /\ length ip = 4%nat /\ length gw = 4%nat /\ 0 <= mask < 256 /\
  s = (dns ++ ip ++ gw ++ [mask])%list /\
  e = [("dns_ip_address", VIPv4 dns); ("ip_address", VIPv4 ip); ("gateway_ip_address", VIPv4 gw); ("netmask", VInt mask)].

(** what follows the common part of a received configuration: less than 4 octets say nothing, 4 are the DNS server, 13 the static configuration; octets after these are ignored *)
Definition tail_received (r : list Z) (t : dict) : Prop :=
  ((length r < 4)%nat /\ t = []) \/
  ((4 <= length r < 13)%nat /\ t = [("dns_ip_address", VIPv4 (firstn 4 r))]) \/
  ((13 <= length r)%nat /\ static_received (firstn 13 r) t).
(** the status: the revision of the chip, the configuration, and the two codes *)
Definition status_sent (d : dict) (s : list Z) : Prop := exists chip c st fl code,
  has_number d "chip_revision_id" 1 chip /\ common_sent d c /\ static_sent d st /\ has_code d "flags" dhcp_flags fl /\ has_code d "status_code" gateway_status_codes code /\
  s = ([chip] ++ c ++ st ++ [fl; code])%list.
Definition status_received (s : list Z) (t : dict) : Prop := exists chip c e st f fn fl cn code,
  0 <= chip < 256 /\ common_received c e /\ static_received st f /\ In (fn, fl) dhcp_flags /\ In (cn, code) gateway_status_codes /\
  s = ([chip] ++ c ++ st ++ [fl; code])%list /\ t = ([("chip_revision_id", VInt chip)] ++ e ++ f ++ [("flags", VEnum fn fl); ("status_code", VEnum cn code)])%list.
(** the port and the address of the server alone *)
Definition address_sent (d : dict) (s : list Z) : Prop := exists port n a,
  has_number d "server_port_number" 2 port /\ has_number d "server_address_length" 1 n /\ has_text d "server_address" (Z.to_nat n) a /\ s = (to_le 2 port ++ [n] ++ a)%list.
Definition address_received (s : list Z) (e : dict) : Prop := exists port a v,
  0 <= port < 65536 /\ (length a < 256)%nat /\ text_received a v /\ s = (to_le 2 port ++ [Z.of_nat (length a)] ++ a)%list /\
  e = [("server_port_number", VInt port); ("server_address_length", VInt (Z.of_nat (length a))); ("server_address", v)].
(** a message to the gateway: opcode octets, sub-opcode, contents *)
Definition gateway_message (m : dict) (sn : string) (sz : Z) (d : dict) : Prop := exists op p sop,
  dget "opcode" m = Some op /\ as_int op = Some 0xF03601 /\ dget "silvair_gateway" m = Some (VDict p) /\
  dget "subopcode" p = Some sop /\ as_int sop = Some sz /\ dget (lower sn) p = Some (VDict d).
Definition gateway_received (sn : string) (sz : Z) (d : dict) : val :=
  VDict [("opcode", VEnum "SILVAIR_GATEWAY" 0xF03601); ("silvair_gateway", VDict [("subopcode", VEnum sn sz); (lower sn, VDict d)])].

(** ** Building *)
Lemma bf_cons k c fs d x a b : dget k d = Some x -> build c d x = Ok a -> build_fields fs d d = Ok b -> build_fields (FCons k c fs) d d = Ok (a ++ b)%list.
Proof. intros H1 H2 H3. cbn [build_fields]. unfold dgetr. rewrite H1. cbn [bind]. rewrite H2. cbn [bind]. rewrite (dset_same _ _ _ H1), H3. reflexivity. Qed.
Lemma bf_err k c fs d x a : dget k d = Some x -> build c d x = Ok a -> (exists e, build_fields fs d d = Err e) -> exists e, build_fields (FCons k c fs) d d = Err e.
Proof. intros H1 H2 (e & H3). cbn [build_fields]. unfold dgetr. rewrite H1. cbn [bind]. rewrite H2. cbn [bind]. rewrite (dset_same _ _ _ H1), H3. cbn [bind]. eauto. Qed.
Lemma bf_none k c fs d : dget k d = None -> exists e, build_fields (FCons k c fs) d d = Err e.
Proof. intros H. cbn [build_fields]. unfold dgetr. rewrite H. cbn [bind]. eauto. Qed.
(** a field is sent as these octets *)
Definition put (k : string) (c : con) (d : dict) (a : list Z) : Prop := exists x, dget k d = Some x /\ build c d x = Ok a.
Lemma put_number d k n z : (0 < n)%nat -> has_number d k n z -> put k (CInt n false) d (to_le n z).
Proof.
  intros Hn (x & H1 & H2 & H3). exists x. split; [exact H1|]. rewrite (int_build n false d z x H2); [now rewrite to_le_mod|]. apply int_range; [exact Hn | exact H3].
Qed.
Lemma put_mac d k a : has_mac d k a -> put k (CAdapt AMac (CBytes 6)) d a.
Proof. intros (t & H1 & H2 & H3). exists (VStr t). split; [exact H1|]. rewrite build_adapt. cbn [encode mac_encode]. rewrite (mac_octets a _ H2). cbn [bind build]. now rewrite H3. Qed.
Lemma put_ip d k a : has_ip d k a -> put k (CAdapt AIp (CBytes 4)) d a.
Proof.
  intros (H1 & H2 & H3). eexists. split; [exact H1|]. rewrite build_adapt. cbn [encode ip_encode]. rewrite (dotted_octets a H2) by (intros ->; discriminate). cbn [bind build]. now rewrite H3.
Qed.
Lemma put_text d k kn n a : has_number d kn 1 n -> has_text d k (Z.to_nat n) a -> put k (CPaddedString (EGet kn)) d a.
Proof.
  intros (x & Hx & Hn & R) (t & l & H1 & H2 & H3 & ->). exists (VStr t). split; [exact H1|]. cbn [build eval]. unfold dgetr. rewrite Hx. cbn [bind]. unfold as_intr. rewrite Hn. cbn [bind].
  destruct (Z.ltb_spec n 0); [lia|]. rewrite H2. destruct (Z.leb_spec (Z.of_nat (length l)) n); [reflexivity | lia].
Qed.
Lemma put_code d k t t' z : codes_same 1 false t' t = true -> forallb (fun q => ((0 <=? snd q) && (snd q <? 256))%Z) t = true -> has_code d k t z -> put k (CAdapt (AEnum t') Int8ul) d [z].
Proof.
  intros E R (m & Hm & Hk). exists (VEnum m z). split; [exact Hk|]. pose proof (proj1 (forallb_forall _ _) R _ Hm) as Hz. cbn [snd] in Hz.
  rewrite <- (octet_le z) by lia. exact (proj1 sends_all _ _ (form_e 1 false t' t (le_n 1) E) d _ _ (enc_e true 1 t m z Hm)).
Qed.
Lemma put_octet d k z : has_number d k 1 z -> put k Int8ul d [z].
Proof. intros H. pose proof H as (x & _ & _ & R). change (256 ^ Z.of_nat 1) with 256 in R. replace [z] with (to_le 1 z); [apply put_number; [lia | exact H]|]. cbn [to_le]. now rewrite Z.mod_small. Qed.
Lemma fields_put k c fs d a b : put k c d a -> build_fields fs d d = Ok b -> build_fields (FCons k c fs) d d = Ok (a ++ b)%list.
Proof. intros (x & H1 & H2). eapply bf_cons; eauto. Qed.
Lemma fields_put_err k c fs d a : put k c d a -> (exists e, build_fields fs d d = Err e) -> exists e, build_fields (FCons k c fs) d d = Err e.
Proof. intros (x & H1 & H2). eapply bf_err; eauto. Qed.
(** the three forms *)
Definition common_fields (fs : fields) : fields :=
  FCons "mtu_size" Int16ul (FCons "mac_address" (CAdapt AMac (CBytes 6)) (FCons "server_port_number" Int16ul (FCons "reconnect_interval" Int16ul
    (FCons "server_address_length" Int8ul (FCons "server_address" (CPaddedString (EGet "server_address_length")) fs))))).
Definition static_fields (fs : fields) : fields :=
  FCons "dns_ip_address" (CAdapt AIp (CBytes 4)) (FCons "ip_address" (CAdapt AIp (CBytes 4)) (FCons "gateway_ip_address" (CAdapt AIp (CBytes 4)) (FCons "netmask" Int8ul fs))).
Lemma set_is : gateway_ConfigurationSet = CSelect (ACons (CStruct (common_fields (static_fields FNil))) (ACons (CStruct (common_fields (FCons "dns_ip_address" (CAdapt AIp (CBytes 4)) FNil)))
  (ACons (CStruct (common_fields FNil)) ANil))).
Proof. reflexivity. Qed.
Lemma status_is : gateway_ConfigurationStatus = CStruct (FCons "chip_revision_id" Int8ul (common_fields (static_fields
  (FCons "flags" (CAdapt (AEnum gateway_DhcpFlag) Int8ul) (FCons "status_code" (CAdapt (AEnum gateway_StatusCode) Int8ul) FNil))))).
Proof. reflexivity. Qed.
Lemma common_put d s fs : common_sent d s ->
  (forall b, build_fields fs d d = Ok b -> build_fields (common_fields fs) d d = Ok (s ++ b)%list) /\
  ((exists e, build_fields fs d d = Err e) -> exists e, build_fields (common_fields fs) d d = Err e).
Proof.
  intros (mtu & mac & port & iv & n & a & H1 & H2 & H3 & H4 & H5 & H6 & ->). pose proof (put_text _ _ _ _ _ H5 H6) as P6.
  apply put_number in H1; [|lia]. apply put_mac in H2. apply put_number in H3; [|lia]. apply put_number in H4; [|lia]. apply put_octet in H5. unfold common_fields. split.
  - intros b Hb. rewrite <- !app_assoc. do 6 (eapply fields_put; [eassumption|]). exact Hb.
  - intros He. do 6 (eapply fields_put_err; [eassumption|]). exact He.
Qed.
Lemma static_put d s fs b : static_sent d s -> build_fields fs d d = Ok b -> build_fields (static_fields fs) d d = Ok (s ++ b)%list.
Proof.
  intros (dns & ip & gw & mask & H1 & H2 & H3 & H4 & ->) Hb. apply put_ip in H1, H2, H3. apply put_octet in H4. unfold static_fields. rewrite <- !app_assoc.
  do 4 (eapply fields_put; [eassumption|]). exact Hb.
Qed.
Lemma needs d fs k : In k (needed fs) -> dget k d = None -> exists e, build_fields fs d d = Err e.
Proof. intros H N. exact (missing_f_err fs d d (needed_missing _ _ _ H N)). Qed.

(** ** Parsing *)
Lemma fresh_next obj k v e : dget k obj = None -> (dset k v (obj ++ e) = obj ++ dset k v e)%list.
Proof. induction obj as [|[j w] obj IH]; [reflexivity|]. cbn [dget]. destruct (String.eqb k j) eqn:E; [discriminate|]. intros H. cbn [app dset]. now rewrite E, IH. Qed.
Lemma dget_next obj k e : dget k obj = None -> dget k (obj ++ e)%list = dget k e.
Proof. induction obj as [|[j w] obj IH]; [reflexivity|]. cbn [dget app]. destruct (String.eqb k j); [discriminate|exact IH]. Qed.
Definition fresh (obj : dict) (ks : list string) : Prop := forall k, In k ks -> dget k obj = None.
Lemma hex_lower c c' n : is_hex c n -> is_hex c' n -> (c = 58 \/ 48 <= c <= 57 \/ 97 <= c <= 102) -> (c' = 58 \/ 48 <= c' <= 57 \/ 97 <= c' <= 102) -> c = c'.
Proof. unfold is_hex. lia. Qed.
Lemma hex_small c n : is_hex c n -> 0 <= n < 16.
Proof. unfold is_hex. lia. Qed.
Lemma mac_unique l : forall t t', mac_text t l -> mac_text t' l -> lower_mac t -> lower_mac t' -> t = t'.
Proof.
  unfold lower_mac. induction l as [|b [|b2 l] IH]; intros t t' H H' L L'; [destruct H| |].
  - destruct H as (c1 & c2 & n1 & n2 & -> & A1 & A2 & E). destruct H' as (c1' & c2' & n1' & n2' & -> & A1' & A2' & E').
    pose proof (hex_small _ _ A1). pose proof (hex_small _ _ A2). pose proof (hex_small _ _ A1'). pose proof (hex_small _ _ A2'). assert (n1 = n1' /\ n2 = n2') as [-> ->] by lia.
    inversion L as [|? ? B1 L1]; subst. inversion L1 as [|? ? B2 _]; subst. inversion L' as [|? ? B1' L1']; subst. inversion L1' as [|? ? B2' _]; subst.
    now rewrite (hex_lower _ _ _ A1 A1' B1 B1'), (hex_lower _ _ _ A2 A2' B2 B2').
  - destruct H as (c1 & c2 & n1 & n2 & s & -> & A1 & A2 & E & M). destruct H' as (c1' & c2' & n1' & n2' & s' & -> & A1' & A2' & E' & M').
    pose proof (hex_small _ _ A1). pose proof (hex_small _ _ A2). pose proof (hex_small _ _ A1'). pose proof (hex_small _ _ A2'). assert (n1 = n1' /\ n2 = n2') as [-> ->] by lia.
    inversion L as [|? ? B1 L1]; subst. inversion L1 as [|? ? B2 L2]; subst. inversion L2; subst. inversion L' as [|? ? B1' L1']; subst. inversion L1' as [|? ? B2' L2']; subst. inversion L2'; subst.
    rewrite (hex_lower _ _ _ A1 A1' B1 B1'), (hex_lower _ _ _ A2 A2' B2 B2'). do 3 f_equal. now apply IH.
Qed.
Lemma mac_read ctx a r t : bytes a -> length a = 6%nat -> mac_text t a -> lower_mac t -> parse (CAdapt AMac (CBytes 6)) ctx (a ++ r)%list = Ok (VStr t, r).
Proof.
  intros B L M Lo. rewrite parse_adapt. cbn [parse]. rewrite (take_app' 6) by exact L. cbn [bind decode mac_decode]. destruct (join_mac a B) as [M' L']; [intros ->; discriminate|].
  now rewrite (mac_unique _ _ _ M' M L' Lo).
Qed.
Lemma mac_parse ctx s v r : bytes s -> parse (CAdapt AMac (CBytes 6)) ctx s = Ok (v, r) ->
  exists a t, v = VStr t /\ s = (a ++ r)%list /\ bytes a /\ length a = 6%nat /\ mac_text t a /\ lower_mac t.
Proof.
  intros B H. rewrite parse_adapt in H. cbn [parse] in H. apply bind_ok in H as ([w r1] & H1 & H). apply bind_ok in H1 as ([a r2] & T & H1). injection H1 as <- <-. apply take_ok in T as [-> L].
  cbn [decode mac_decode bind] in H. injection H as <- <-. apply Forall_app in B as [Ba _]. destruct (join_mac a Ba) as [M Lo]; [intros ->; discriminate|]. eauto 10.
Qed.
Lemma ip_read ctx a r : length a = 4%nat -> parse (CAdapt AIp (CBytes 4)) ctx (a ++ r)%list = Ok (VIPv4 a, r).
Proof. intros L. rewrite parse_adapt. cbn [parse]. rewrite (take_app' 4) by exact L. reflexivity. Qed.
Lemma ip_parse ctx s v r : parse (CAdapt AIp (CBytes 4)) ctx s = Ok (v, r) -> exists a, v = VIPv4 a /\ s = (a ++ r)%list /\ length a = 4%nat.
Proof.
  intros H. rewrite parse_adapt in H. cbn [parse] in H. apply bind_ok in H as ([w r1] & H1 & H). apply bind_ok in H1 as ([a r2] & T & H1). injection H1 as <- <-. apply take_ok in T as [-> L].
  cbn [decode ip_decode bind] in H. injection H as <- <-. eauto.
Qed.
Lemma text_read ctx k a v r : dget k ctx = Some (VInt (Z.of_nat (length a))) -> text_received a v -> parse (CPaddedString (EGet k)) ctx (a ++ r)%list = Ok (v, r).
Proof.
  intros Hk (t & l & n & -> & -> & Hl & Ht). cbn [parse eval]. unfold dgetr. rewrite Hk. cbn [bind as_intr as_int]. unfold as_intr. cbn [as_int bind].
  destruct (Z.ltb_spec (Z.of_nat (length (l ++ repeat 0 n))) 0); [lia|]. rewrite Nat2Z.id, take_app' by reflexivity. cbn [bind]. rewrite strip_nul_app, strip_nul_last by exact Hl.
  now rewrite (utf8_decode_encode _ _ Ht).
Qed.
Lemma strip_spec l : exists l' k, l = (l' ++ repeat 0 k)%list /\ last l' 1 <> 0 /\ strip_nul l = l'.
Proof.
  induction l as [|b l (l' & k & E & Hl & Es)]; [exists [], O; repeat split; discriminate|]. cbn [strip_nul]. rewrite Es. destruct l' as [|c l'].
  - destruct (Z.eqb_spec b 0) as [->|N]; [exists [], (S k); cbn in *; subst; repeat split; discriminate|]. exists [b], k. cbn in *. subst. auto.
  - exists (b :: c :: l'), k. cbn [app]. rewrite E. repeat split. exact Hl.
Qed.
Lemma text_parse ctx k n s v r : bytes s -> dget k ctx = Some (VInt n) -> parse (CPaddedString (EGet k)) ctx s = Ok (v, r) ->
  exists a, s = (a ++ r)%list /\ Z.of_nat (length a) = n /\ text_received a v.
Proof.
  intros B Hk H. cbn [parse eval] in H. unfold dgetr in H. rewrite Hk in H. cbn [bind] in H. unfold as_intr in H. cbn [as_int bind] in H. destruct (Z.ltb_spec n 0); [discriminate|].
  apply bind_ok in H as ([a r'] & T & H). apply take_ok in T as [-> L]. destruct (strip_spec a) as (l' & j & E & Hl & Es). rewrite Es in H. destruct (utf8_decode l') as [t|] eqn:U; [|discriminate].
  injection H as <- <-. exists a. split; [reflexivity|]. split; [lia|]. exists t, l', j. repeat split; auto. apply Forall_app in B as [B _]. rewrite E in B. apply Forall_app in B as [B _].
  exact (utf8_encode_decode (length l') l' t (le_n _) B U).
Qed.
Lemma num_read n ctx z r : (0 < n)%nat -> 0 <= z < 256 ^ Z.of_nat n -> parse (CInt n false) ctx (to_le n z ++ r)%list = Ok (VInt z, r).
Proof. intros Hn R. rewrite <- (to_le_mod n z). apply int_read; [exact Hn | now apply int_range]. Qed.
Lemma num_parse n ctx s v r : (0 < n)%nat -> bytes s -> parse (CInt n false) ctx s = Ok (v, r) -> exists z, v = VInt z /\ 0 <= z < 256 ^ Z.of_nat n /\ s = (to_le n z ++ r)%list.
Proof. intros Hn B H. apply int_parse in H as (z & -> & R & ->); auto. apply (int_range n false z Hn) in R. exists z. rewrite to_le_mod. auto. Qed.
Lemma octet1 z : 0 <= z < 256 -> to_le 1 z = [z].
Proof. intros H. cbn [to_le]. now rewrite Z.mod_small. Qed.
Lemma pf_cons k c fs obj e s v r : dget k obj = None -> parse c (obj ++ e)%list s = Ok (v, r) -> parse_fields (FCons k c fs) (obj ++ e)%list s = parse_fields fs (obj ++ dset k v e)%list r.
Proof. intros F H. cbn [parse_fields]. rewrite H. cbn [bind]. now rewrite fresh_next. Qed.
Lemma pf_inv k c fs obj e s d r : dget k obj = None -> parse_fields (FCons k c fs) (obj ++ e)%list s = Ok (d, r) ->
  exists v r', parse c (obj ++ e)%list s = Ok (v, r') /\ parse_fields fs (obj ++ dset k v e)%list r' = Ok (d, r).
Proof. intros F H. cbn [parse_fields] in H. apply bind_ok in H as ([v r'] & E & H). rewrite fresh_next in H by exact F. eauto. Qed.
Definition common_keys := ["mtu_size"; "mac_address"; "server_port_number"; "reconnect_interval"; "server_address_length"; "server_address"].
Definition static_keys := ["dns_ip_address"; "ip_address"; "gateway_ip_address"; "netmask"].
Ltac key F := apply F; repeat first [left; reflexivity | right].
Lemma common_read obj s e fs r : fresh obj common_keys -> common_received s e -> parse_fields (common_fields fs) obj (s ++ r)%list = parse_fields fs (obj ++ e)%list r.
Proof.
  intros F (mtu & mac & port & iv & a & t & v & R1 & R2 & R3 & B & L & La & M & Lo & T & -> & ->). unfold common_fields. rewrite <- (app_nil_r obj) at 1. rewrite <- !app_assoc.
  rewrite (pf_cons "mtu_size" _ _ _ _ _ _ _ ltac:(key F) (num_read 2 _ mtu _ ltac:(lia) R1)). rewrite (pf_cons "mac_address" _ _ _ _ _ _ _ ltac:(key F) (mac_read _ mac _ t B L M Lo)).
  rewrite (pf_cons "server_port_number" _ _ _ _ _ _ _ ltac:(key F) (num_read 2 _ port _ ltac:(lia) R2)). rewrite (pf_cons "reconnect_interval" _ _ _ _ _ _ _ ltac:(key F) (num_read 2 _ iv _ ltac:(lia) R3)).
  rewrite <- (octet1 (Z.of_nat (length a))) by lia.
  rewrite (pf_cons "server_address_length" _ _ _ _ _ _ _ ltac:(key F) (num_read 1 _ (Z.of_nat (length a)) _ ltac:(lia) ltac:(change (256 ^ Z.of_nat 1) with 256; lia))).
  cbn [dset String.eqb Ascii.eqb Bool.eqb].
  erewrite pf_cons; [|key F | apply text_read; [|exact T]; rewrite dget_next by (key F); reflexivity]. reflexivity.
Qed.
Lemma common_inv obj s fs d r : fresh obj common_keys -> bytes s -> parse_fields (common_fields fs) obj s = Ok (d, r) ->
  exists c e s', s = (c ++ s')%list /\ common_received c e /\ parse_fields fs (obj ++ e)%list s' = Ok (d, r).
Proof.
  intros F B H. unfold common_fields in H. rewrite <- (app_nil_r obj) in H at 1.
  apply pf_inv in H as (v1 & s1 & E1 & H); [|key F]. apply num_parse in E1 as (mtu & -> & R1 & ->); [|lia|exact B]. apply Forall_app in B as [_ B].
  apply pf_inv in H as (v2 & s2 & E2 & H); [|key F]. apply mac_parse in E2 as (mac & t & -> & -> & Bm & L & M & Lo); [|exact B]. apply Forall_app in B as [_ B].
  apply pf_inv in H as (v3 & s3 & E3 & H); [|key F]. apply num_parse in E3 as (port & -> & R2 & ->); [|lia|exact B]. apply Forall_app in B as [_ B].
  apply pf_inv in H as (v4 & s4 & E4 & H); [|key F]. apply num_parse in E4 as (iv & -> & R3 & ->); [|lia|exact B]. apply Forall_app in B as [_ B].
  apply pf_inv in H as (v5 & s5 & E5 & H); [|key F]. apply num_parse in E5 as (n & -> & R4 & ->); [|lia|exact B]. apply Forall_app in B as [_ B].
  apply pf_inv in H as (v6 & s6 & E6 & H); [|key F]. cbn [dset String.eqb Ascii.eqb Bool.eqb] in E6, H.
  apply text_parse with (n := n) in E6 as (a & -> & La & T); [|exact B|rewrite dget_next by (key F); reflexivity]. change (256 ^ Z.of_nat 1) with 256 in R4.
  eexists _, _, s6. split; [|split; [|exact H]]; [|subst n; exists mtu, mac, port, iv, a, t, v6; repeat (split; [first [assumption | lia]|]); split; reflexivity].
  subst n. rewrite (octet1 (Z.of_nat (length a))) by lia. rewrite <- !app_assoc. reflexivity.
Qed.
Lemma static_read obj s t fs r : fresh obj static_keys -> static_received s t -> parse_fields (static_fields fs) obj (s ++ r)%list = parse_fields fs (obj ++ t)%list r.
Proof.
  intros F (dns & ip & gw & mask & L1 & L2 & L3 & R & -> & ->). unfold static_fields. rewrite <- (app_nil_r obj) at 1. rewrite <- !app_assoc, <- (octet1 mask R).
  rewrite (pf_cons "dns_ip_address" _ _ _ _ _ _ _ ltac:(key F) (ip_read _ dns _ L1)), (pf_cons "ip_address" _ _ _ _ _ _ _ ltac:(key F) (ip_read _ ip _ L2)), (pf_cons "gateway_ip_address" _ _ _ _ _ _ _ ltac:(key F) (ip_read _ gw _ L3)).
  rewrite (pf_cons "netmask" _ _ _ _ _ _ _ ltac:(key F) (num_read 1 _ mask _ ltac:(lia) R)). reflexivity.
Qed.
Lemma static_inv obj s fs d r : fresh obj static_keys -> bytes s -> parse_fields (static_fields fs) obj s = Ok (d, r) ->
  exists p t s', s = (p ++ s')%list /\ static_received p t /\ parse_fields fs (obj ++ t)%list s' = Ok (d, r).
Proof.
  intros F B H. unfold static_fields in H. rewrite <- (app_nil_r obj) in H at 1.
  apply pf_inv in H as (v1 & s1 & E1 & H); [|key F]. apply ip_parse in E1 as (dns & -> & -> & L1). apply Forall_app in B as [_ B].
  apply pf_inv in H as (v2 & s2 & E2 & H); [|key F]. apply ip_parse in E2 as (ip & -> & -> & L2). apply Forall_app in B as [_ B].
  apply pf_inv in H as (v3 & s3 & E3 & H); [|key F]. apply ip_parse in E3 as (gw & -> & -> & L3). apply Forall_app in B as [_ B].
  apply pf_inv in H as (v4 & s4 & E4 & H); [|key F]. apply num_parse in E4 as (mask & -> & R & ->); [|lia|exact B]. change (256 ^ Z.of_nat 1) with 256 in R. rewrite (octet1 mask R).
  cbn [dset String.eqb Ascii.eqb Bool.eqb] in H.
  eexists _, _, s4. split; [|split; [|exact H]]; [|exists dns, ip, gw, mask; repeat (split; [first [assumption | lia]|]); split; reflexivity]. rewrite <- !app_assoc. reflexivity.
Qed.
Lemma common_fresh s e : common_received s e -> fresh e static_keys.
Proof. intros (mtu & mac & port & iv & a & t & v & _ & _ & _ & _ & _ & _ & _ & _ & _ & _ & ->) k Hk. repeat destruct Hk as [<- | Hk]; try reflexivity. destruct Hk. Qed.

Lemma static_prod : prodf (static_fields FNil) = true. Proof. reflexivity. Qed.
Lemma short_err fs obj s : prodf fs = true -> (length s < minszf fs)%nat -> exists e, parse_fields fs obj s = Err e.
Proof.
  intros P L. destruct (parse_fields fs obj s) as [[d r]|e|] eqn:E; [|eauto|].
  - apply parse_len_mut in E. lia.
  - exfalso. revert E. now apply parse_nodiv_mut.
Qed.
Lemma code_read t t' m z ctx r : codes_same 1 false t' t = true -> In (m, z) t -> parse (CAdapt (AEnum t') Int8ul) ctx (z :: r) = Ok (VEnum m z, r).
Proof.
  intros E H. destruct (codes_same_out 1 false t' t m z E H) as [V R]. apply (int_range 1 false z ltac:(lia)) in R. change (256 ^ Z.of_nat 1) with 256 in R.
  rewrite parse_adapt. change (z :: r) with ([z] ++ r)%list. rewrite <- (octet1 z R), num_read by (auto; lia). cbn [bind decode]. unfold enum_decode. cbn [as_int]. now rewrite V.
Qed.
Lemma code_parse t t' ctx s v r : codes_same 1 false t' t = true -> bytes s -> parse (CAdapt (AEnum t') Int8ul) ctx s = Ok (v, r) -> exists m z, v = VEnum m z /\ In (m, z) t /\ s = z :: r.
Proof.
  intros E B H. apply enum_parse in H as (m & z & -> & V & R & ->); [|lia|exact B]. apply (int_range 1 false z ltac:(lia)) in R. change (256 ^ Z.of_nat 1) with 256 in R.
  exists m, z. split; [reflexivity|]. split; [exact (codes_same_in 1 false t' t m z E V)|]. rewrite to_le_mod. now rewrite octet1.
Qed.

(** ** C59 *)
Definition rows := [("SILVAIR_GATEWAY", 0xF03601, "GATEWAY_CONFIGURATION_SET", 1, gateway_ConfigurationSet); ("SILVAIR_GATEWAY", 0xF03601, "GATEWAY_CONFIGURATION_STATUS", 12, gateway_ConfigurationStatus);
  ("SILVAIR_GATEWAY", 0xF03601, "SERVER_ADDRESS_AND_PORT_NUMBER_SET", 6, gateway_ConfigurationSetServerAddrAndPortNr)].
Lemma rows_at : map (fun i => nth_error sub_params i) [31; 40; 34]%nat = map Some rows.
Proof. vm_compute. reflexivity. Qed.
Lemma row_in {A} (l : list A) is rs : map (fun i => nth_error l i) is = map Some rs -> forall x, In x rs -> In x l.
Proof.
  revert rs. induction is as [|i is IH]; intros [|r rs] E x Hx; try discriminate; [destruct Hx|]. injection E as E1 E2. destruct Hx as [<- | Hx]; [eapply nth_error_In; exact E1 | eauto].
Qed.
Lemma set_in : In ("SILVAIR_GATEWAY", 0xF03601, "GATEWAY_CONFIGURATION_SET", 1, gateway_ConfigurationSet) sub_params.
Proof. apply (row_in _ _ _ rows_at). left. reflexivity. Qed.
Lemma status_in : In ("SILVAIR_GATEWAY", 0xF03601, "GATEWAY_CONFIGURATION_STATUS", 12, gateway_ConfigurationStatus) sub_params.
Proof. apply (row_in _ _ _ rows_at). right. left. reflexivity. Qed.
Lemma address_in : In ("SILVAIR_GATEWAY", 0xF03601, "SERVER_ADDRESS_AND_PORT_NUMBER_SET", 6, gateway_ConfigurationSetServerAddrAndPortNr) sub_params.
Proof. apply (row_in _ _ _ rows_at). right. right. left. reflexivity. Qed.
Lemma address_is : gateway_ConfigurationSetServerAddrAndPortNr =
  CStruct (FCons "server_port_number" Int16ul (FCons "server_address_length" Int8ul (FCons "server_address" (CPaddedString (EGet "server_address_length")) FNil))).
Proof. reflexivity. Qed.
Lemma sent sn sz c d m o s : In ("SILVAIR_GATEWAY", 0xF03601, sn, sz, c) sub_params -> opcode_bytes 0xF03601 o -> gateway_message m sn sz d -> build c [] (VDict d) = Ok s ->
  access_build (VDict m) = Ok (o ++ sz :: s)%list.
Proof.
  intros Hi Ho (op & p & sop & H1 & H2 & H3 & H4 & H5 & H6) B. rewrite (C49_submessage_build _ _ _ _ _ _ _ _ _ _ _ Hi Ho H1 H2 H3 H4 H5 H6). unfold build_msg. rewrite B. reflexivity.
Qed.
Lemma flags_same : codes_same 1 false gateway_DhcpFlag dhcp_flags = true. Proof. vm_compute. reflexivity. Qed.
Lemma codes_same_st : codes_same 1 false gateway_StatusCode gateway_status_codes = true. Proof. vm_compute. reflexivity. Qed.
(** A configuration with no DNS server is the common part alone. *)
Theorem C59_auto_sent : forall o m d s, opcode_bytes 0xF03601 o -> gateway_message m "GATEWAY_CONFIGURATION_SET" 1 d -> common_sent d s -> dget "dns_ip_address" d = None ->
  access_build (VDict m) = Ok (o ++ 1 :: s)%list.
Proof.
  intros o m d s Ho Hm Hc Hd. apply (sent _ _ _ _ _ _ _ set_in Ho Hm). rewrite set_is. cbn [build build_alts as_dict bind].
  destruct (proj2 (common_put d s (static_fields FNil) Hc)) as (e1 & ->); [unfold static_fields; apply bf_none; exact Hd|].
  destruct (proj2 (common_put d s (FCons "dns_ip_address" (CAdapt AIp (CBytes 4)) FNil) Hc)) as (e2 & ->); [apply bf_none; exact Hd|].
  rewrite (proj1 (common_put d s FNil Hc) [] eq_refl). now rewrite app_nil_r.
Qed.
(** With a DNS server but without one of the other addresses, the DNS server follows. *)
Theorem C59_dns_sent : forall o m d s dns k, opcode_bytes 0xF03601 o -> gateway_message m "GATEWAY_CONFIGURATION_SET" 1 d -> common_sent d s -> has_ip d "dns_ip_address" dns ->
  In k ["ip_address"; "gateway_ip_address"; "netmask"] -> dget k d = None -> access_build (VDict m) = Ok (o ++ 1 :: s ++ dns)%list.
Proof.
  intros o m d s dns k Ho Hm Hc Hd Hk N. apply (sent _ _ _ _ _ _ _ set_in Ho Hm). rewrite set_is. cbn [build build_alts as_dict bind].
  destruct (proj2 (common_put d s (static_fields FNil) Hc)) as (e1 & ->).
  { apply (needs _ _ k); [|exact N]. destruct Hk as [<- | [<- | [<- | []]]]; cbn; auto. }
  rewrite (proj1 (common_put d s (FCons "dns_ip_address" (CAdapt AIp (CBytes 4)) FNil) Hc) dns); [reflexivity|]. rewrite <- (app_nil_r dns). eapply fields_put; [apply put_ip; exact Hd | reflexivity].
Qed.
(** A complete configuration carries the four static addresses. *)
Theorem C59_static_sent : forall o m d s t, opcode_bytes 0xF03601 o -> gateway_message m "GATEWAY_CONFIGURATION_SET" 1 d -> common_sent d s -> static_sent d t ->
  access_build (VDict m) = Ok (o ++ 1 :: s ++ t)%list.
Proof.
  intros o m d s t Ho Hm Hc Ht. apply (sent _ _ _ _ _ _ _ set_in Ho Hm). rewrite set_is. cbn [build build_alts as_dict bind].
  rewrite (proj1 (common_put d s (static_fields FNil) Hc) t); [reflexivity|]. rewrite <- (app_nil_r t). apply static_put; [exact Ht | reflexivity].
Qed.
Theorem C59_status_sent : forall o m d s, opcode_bytes 0xF03601 o -> gateway_message m "GATEWAY_CONFIGURATION_STATUS" 12 d -> status_sent d s -> access_build (VDict m) = Ok (o ++ 12 :: s)%list.
Proof.
  intros o m d s Ho Hm (chip & c & st & fl & code & H1 & H2 & H3 & H4 & H5 & ->). apply (sent _ _ _ _ _ _ _ status_in Ho Hm). rewrite status_is. cbn [build as_dict bind].
  eapply fields_put; [apply put_octet; exact H1|]. apply common_put; [exact H2|]. apply static_put; [exact H3|]. change [fl; code] with ([fl] ++ [code] ++ [])%list.
  eapply fields_put; [exact (put_code d "flags" dhcp_flags gateway_DhcpFlag fl flags_same ltac:(vm_compute; reflexivity) H4)|]. eapply fields_put; [exact (put_code d "status_code" gateway_status_codes gateway_StatusCode code codes_same_st ltac:(vm_compute; reflexivity) H5)|]. reflexivity.
Qed.

Lemma set_parse c e r t : common_received c e -> bytes r -> tail_received r t -> exists r', parse gateway_ConfigurationSet [] (c ++ r)%list = Ok (VDict (e ++ t)%list, r').
Proof.
  intros Hc B Ht. rewrite set_is. cbn [parse parse_alts]. rewrite !(common_read [] c e _ r) by (exact Hc || (intros k _; reflexivity)). cbn [app]. pose proof (common_fresh _ _ Hc) as F.
  destruct Ht as [[L ->] | [[L ->] | [L Hs]]].
  - destruct (short_err (static_fields FNil) e r eq_refl) as (e1 & ->); [cbn; lia|]. cbn [bind]. destruct (short_err (FCons "dns_ip_address" (CAdapt AIp (CBytes 4)) FNil) e r eq_refl) as (e2 & ->); [cbn; lia|].
    cbn [bind parse_fields]. rewrite app_nil_r. eauto.
  - destruct (short_err (static_fields FNil) e r eq_refl) as (e1 & ->); [cbn; lia|]. cbn [bind]. exists (skipn 4 r). rewrite <- (firstn_skipn 4 r) at 1. rewrite <- (app_nil_r e) at 1.
    rewrite (pf_cons "dns_ip_address" _ _ e [] _ _ _ ltac:(key F) (ip_read _ (firstn 4 r) (skipn 4 r) ltac:(rewrite firstn_length; lia))). reflexivity.
  - exists (skipn 13 r). rewrite <- (firstn_skipn 13 r) at 1. rewrite (static_read e (firstn 13 r) t FNil (skipn 13 r) F Hs). reflexivity.
Qed.
Lemma received_in sn sz c o q : In ("SILVAIR_GATEWAY", 0xF03601, sn, sz, c) sub_params -> opcode_bytes 0xF03601 o ->
  (forall d r, parse c [] q = Ok (VDict d, r) -> access_parse (o ++ sz :: q)%list = Ok (gateway_received sn sz d)).
Proof. intros Hi Ho d r E. rewrite (C49_submessage_parse _ _ _ _ _ _ _ Hi Ho). unfold parse_msg. rewrite E. reflexivity. Qed.
(** Every well-formed configuration is received as what its octets say ... *)
Theorem C59_set_accepted : forall o c e r t, opcode_bytes 0xF03601 o -> common_received c e -> bytes r -> tail_received r t ->
  access_parse (o ++ 1 :: c ++ r)%list = Ok (gateway_received "GATEWAY_CONFIGURATION_SET" 1 (e ++ t)%list).
Proof. intros o c e r t Ho Hc B Ht. destruct (set_parse c e r t Hc B Ht) as (r' & E). exact (received_in _ _ _ _ _ set_in Ho _ _ E). Qed.
Lemma tail_total r : bytes r -> exists t, tail_received r t.
Proof.
  intros B. destruct (Nat.lt_ge_cases (length r) 4) as [L|L]; [exists []; left; auto|]. destruct (Nat.lt_ge_cases (length r) 13) as [L'|L']; [eexists; right; left; split; [lia|reflexivity]|].
  destruct r as [|z r]; [cbn in L'; lia|]. destruct r as [|z0 r]; [cbn in L'; lia|]. destruct r as [|z1 r]; [cbn in L'; lia|]. destruct r as [|z2 r]; [cbn in L'; lia|]. destruct r as [|z3 r]; [cbn in L'; lia|]. destruct r as [|z4 r]; [cbn in L'; lia|]. destruct r as [|z5 r]; [cbn in L'; lia|]. destruct r as [|z6 r]; [cbn in L'; lia|]. destruct r as [|z7 r]; [cbn in L'; lia|]. destruct r as [|z8 r]; [cbn in L'; lia|]. destruct r as [|z9 r]; [cbn in L'; lia|]. destruct r as [|z10 r]; [cbn in L'; lia|]. destruct r as [|z11 r]; [cbn in L'; lia|]. assert (Bz : isbyte z11) by (unfold bytes in B; rewrite Forall_forall in B; apply B; cbn; tauto).
  eexists. right. right. split; [exact L'|]. exists [z; z0; z1; z2], [z3; z4; z5; z6], [z7; z8; z9; z10], z11. repeat (split; [reflexivity|]). split; [exact Bz|]. split; reflexivity.
Qed.
Lemma received_out sn sz c o q u : In ("SILVAIR_GATEWAY", 0xF03601, sn, sz, c) sub_params -> opcode_bytes 0xF03601 o -> access_parse (o ++ sz :: q)%list = Ok u ->
  exists v r, parse c [] q = Ok (v, r).
Proof.
  intros Hi Ho E. rewrite (C49_submessage_parse _ _ _ _ _ _ _ Hi Ho) in E. unfold parse_msg in E. apply bind_ok in E as (w & E & _). apply bind_ok in E as ([v r] & E & _). eauto.
Qed.
(** ... and nothing else is received. *)
Theorem C59_set_received : forall o q u, opcode_bytes 0xF03601 o -> bytes q -> access_parse (o ++ 1 :: q)%list = Ok u ->
  exists c e r t, q = (c ++ r)%list /\ common_received c e /\ tail_received r t /\ u = gateway_received "GATEWAY_CONFIGURATION_SET" 1 (e ++ t)%list.
Proof.
  intros o q u Ho B E. destruct (received_out _ _ _ _ _ _ set_in Ho E) as (v & r & P).
  assert (exists c e s', q = (c ++ s')%list /\ common_received c e) as (c & e & s' & -> & Hc).
  { rewrite set_is in P. cbn [parse parse_alts] in P. repeat match type of P with context [parse_fields (common_fields ?f) [] q] => destruct (parse_fields (common_fields f) [] q) as [[d1 r1]|?|] eqn:?E1 end;
      cbn [bind] in P; try discriminate P;
      match goal with X : parse_fields (common_fields _) [] q = Ok _ |- _ => apply common_inv in X as (cc & ee & ss & -> & Hc & _); [exists cc, ee, ss; auto | intros k _; reflexivity | exact B] end. }
  pose proof B as B'. apply Forall_app in B' as [_ B']. destruct (tail_total s' B') as (t & Ht). exists c, e, s', t. split; [reflexivity|]. split; [exact Hc|]. split; [exact Ht|].
  rewrite (C59_set_accepted o c e s' t Ho Hc B' Ht) in E. now injection E as <-.
Qed.
Lemma status_fresh s e k : common_received s e -> dget "chip_revision_id" e = None /\ dget "flags" e = None /\ dget "status_code" e = None /\ dget k e = dget k e.
Proof. intros (mtu & mac & port & iv & a & t & v & _ & _ & _ & _ & _ & _ & _ & _ & _ & _ & ->). repeat split; reflexivity. Qed.
Lemma status_parse s t r : status_received s t -> parse gateway_ConfigurationStatus [] (s ++ r)%list = Ok (VDict t, r).
Proof.
  intros (chip & c & e & st & f & fn & fl & cn & code & R & Hc & Hs & Hf & Hk & -> & ->). rewrite status_is. cbn [parse]. rewrite <- !app_assoc. change (@nil (string * val)) with ([] ++ [] : dict)%list.
  rewrite <- (octet1 chip R). rewrite (pf_cons "chip_revision_id" _ _ [] [] _ _ _ eq_refl (num_read 1 _ chip _ ltac:(lia) R)). cbn [app dset].
  assert (F : fresh [("chip_revision_id", VInt chip)] common_keys) by (intros k Hk'; repeat destruct Hk' as [<- | Hk']; try reflexivity; destruct Hk').
  rewrite (common_read _ c e _ _ F Hc).
  destruct Hc as (mtu & mac & port & iv & a & t & v & _ & _ & _ & _ & _ & _ & _ & _ & _ & _ & ->).
  rewrite (static_read _ st f _ _); [|intros k Hk'; repeat destruct Hk' as [<- | Hk']; try reflexivity; destruct Hk' | exact Hs].
  destruct Hs as (dns & ip & gw & mask & _ & _ & _ & _ & _ & ->). cbn [app]. cbn [parse_fields].
  rewrite (code_read dhcp_flags gateway_DhcpFlag fn fl _ (code :: r) flags_same Hf). cbn [bind dset String.eqb Ascii.eqb Bool.eqb].
  rewrite (code_read gateway_status_codes gateway_StatusCode cn code _ r codes_same_st Hk). reflexivity.
Qed.
Theorem C59_status_accepted : forall o s t r, opcode_bytes 0xF03601 o -> status_received s t -> access_parse (o ++ 12 :: s ++ r)%list = Ok (gateway_received "GATEWAY_CONFIGURATION_STATUS" 12 t).
Proof. intros o s t r Ho Hs. exact (received_in _ _ _ _ _ status_in Ho _ _ (status_parse s t r Hs)). Qed.
Theorem C59_status_received : forall o q u, opcode_bytes 0xF03601 o -> bytes q -> access_parse (o ++ 12 :: q)%list = Ok u ->
  exists s t r, q = (s ++ r)%list /\ status_received s t /\ u = gateway_received "GATEWAY_CONFIGURATION_STATUS" 12 t.
Proof.
  intros o q u Ho B E. destruct (received_out _ _ _ _ _ _ status_in Ho E) as (v & r & P).
  assert (exists s t r', q = (s ++ r')%list /\ status_received s t) as (s & t & r' & -> & Hs).
  { rewrite status_is in P. cbn [parse] in P. apply bind_ok in P as ([d r1] & P & _). change (@nil (string * val)) with ([] ++ [] : dict)%list in P.
    apply pf_inv in P as (v1 & s1 & E1 & H); [|reflexivity]. apply num_parse in E1 as (chip & -> & R & ->); [|lia|exact B]. apply Forall_app in B as [_ B]. cbn [app dset] in H.
    assert (F : fresh [("chip_revision_id", VInt chip)] common_keys) by (intros k Hk'; repeat destruct Hk' as [<- | Hk']; try reflexivity; destruct Hk').
    apply common_inv in H as (c & e & s2 & -> & Hc & H); [|exact F|exact B]. apply Forall_app in B as [_ B].
    apply static_inv in H as (st & f & s3 & -> & Hs & H); [| |exact B].
    2:{ destruct Hc as (mtu & mac & port & iv & a & t & w & _ & _ & _ & _ & _ & _ & _ & _ & _ & _ & ->). intros k Hk'; repeat destruct Hk' as [<- | Hk']; try reflexivity; destruct Hk'. }
    apply Forall_app in B as [_ B]. cbn [parse_fields] in H. apply bind_ok in H as ([v2 s4] & E2 & H). apply (code_parse dhcp_flags) in E2 as (fn & fl & -> & Hf & ->); [|exact flags_same|exact B].
    apply bind_ok in H as ([v3 s5] & E3 & H). inversion B; subst. apply (code_parse gateway_status_codes) in E3 as (cn & code & -> & Hk & ->); [|exact codes_same_st|assumption].
    change (256 ^ Z.of_nat 1) with 256 in R. eexists _, _, s5. split; [|exists chip, c, e, st, f, fn, fl, cn, code; repeat (split; [first [assumption | reflexivity]|]); reflexivity].
    rewrite (octet1 chip R), <- !app_assoc. reflexivity. }
  exists s, t, r'. split; [reflexivity|]. split; [exact Hs|]. rewrite (C59_status_accepted o s t r' Ho Hs) in E. now injection E as <-.
Qed.

(** The server's address and port alone: the text is padded with NULs to the length given, and read back up to them. *)
Theorem C59_address_sent : forall o m d s, opcode_bytes 0xF03601 o -> gateway_message m "SERVER_ADDRESS_AND_PORT_NUMBER_SET" 6 d -> address_sent d s -> access_build (VDict m) = Ok (o ++ 6 :: s)%list.
Proof.
  intros o m d s Ho Hm (port & n & a & H1 & H2 & H3 & ->). apply (sent _ _ _ _ _ _ _ address_in Ho Hm). rewrite address_is. cbn [build as_dict bind].
  pose proof (put_text _ _ _ _ _ H2 H3) as P3. apply put_number in H1; [|lia]. apply put_octet in H2. rewrite <- (app_nil_r a). do 3 (eapply fields_put; [eassumption|]). reflexivity.
Qed.
Lemma address_parse s e r : address_received s e -> parse gateway_ConfigurationSetServerAddrAndPortNr [] (s ++ r)%list = Ok (VDict e, r).
Proof.
  intros (port & a & v & R & L & T & -> & ->). rewrite address_is. cbn [parse]. rewrite <- !app_assoc. change (@nil (string * val)) with ([] ++ [] : dict)%list.
  rewrite <- (octet1 (Z.of_nat (length a))) by lia.
  rewrite (pf_cons "server_port_number" _ _ [] [] _ _ _ eq_refl (num_read 2 _ port _ ltac:(lia) R)).
  rewrite (pf_cons "server_address_length" _ _ [] _ _ _ _ eq_refl (num_read 1 _ (Z.of_nat (length a)) _ ltac:(lia) ltac:(change (256 ^ Z.of_nat 1) with 256; lia))).
  cbn [dset String.eqb Ascii.eqb Bool.eqb]. erewrite (pf_cons "server_address" _ _ []); [|reflexivity | apply text_read; [reflexivity | exact T]]. reflexivity.
Qed.
Theorem C59_address_accepted : forall o s e r, opcode_bytes 0xF03601 o -> address_received s e ->
  access_parse (o ++ 6 :: s ++ r)%list = Ok (gateway_received "SERVER_ADDRESS_AND_PORT_NUMBER_SET" 6 e).
Proof. intros o s e r Ho Hs. exact (received_in _ _ _ _ _ address_in Ho _ _ (address_parse s e r Hs)). Qed.
Theorem C59_address_received : forall o q u, opcode_bytes 0xF03601 o -> bytes q -> access_parse (o ++ 6 :: q)%list = Ok u ->
  exists s e r, q = (s ++ r)%list /\ address_received s e /\ u = gateway_received "SERVER_ADDRESS_AND_PORT_NUMBER_SET" 6 e.
Proof.
  intros o q u Ho B E. destruct (received_out _ _ _ _ _ _ address_in Ho E) as (v & r & P).
  assert (exists s e r', q = (s ++ r')%list /\ address_received s e) as (s & e & r' & -> & Hs).
  { rewrite address_is in P. cbn [parse] in P. apply bind_ok in P as ([d r1] & P & _). change (@nil (string * val)) with ([] ++ [] : dict)%list in P.
    apply (pf_inv _ _ _ []) in P as (v1 & s1 & E1 & H); [|reflexivity]. apply num_parse in E1 as (port & -> & R1 & ->); [|lia|exact B]. apply Forall_app in B as [_ B].
    apply (pf_inv _ _ _ []) in H as (v2 & s2 & E2 & H); [|reflexivity]. apply num_parse in E2 as (n & -> & R2 & ->); [|lia|exact B]. apply Forall_app in B as [_ B].
    apply (pf_inv _ _ _ []) in H as (v3 & s3 & E3 & H); [|reflexivity]. cbn [dset String.eqb Ascii.eqb Bool.eqb] in E3.
    apply text_parse with (n := n) in E3 as (a & -> & La & T); [|exact B|reflexivity]. change (256 ^ Z.of_nat 1) with 256 in R2.
    eexists _, _, s3. split; [|exists port, a, v3; subst n; split; [exact R1|]; split; [lia|]; split; [exact T|]; split; reflexivity].
    subst n. rewrite (octet1 (Z.of_nat (length a))) by lia. rewrite <- !app_assoc. reflexivity. }
  exists s, e, r'. split; [reflexivity|]. split; [exact Hs|]. rewrite (C59_address_accepted o s e r' Ho Hs) in E. now injection E as <-.
Qed.

(** *** Concrete cases *)
Definition example_mac := cps "00:11:22:aa:bb:cc".
Definition example_common : dict := [("mtu_size", VInt 1400); ("mac_address", VStr example_mac); ("server_port_number", VInt 443); ("reconnect_interval", VInt 30);
  ("server_address_length", VInt 4); ("server_address", VStr (cps "a.b"))].
Definition example_octets := [0x78; 5; 0; 0x11; 0x22; 0xAA; 0xBB; 0xCC; 0xBB; 1; 30; 0; 4; 97; 46; 98; 0].
Definition example_static : dict := [("dns_ip_address", VStr (cps "8.8.8.8")); ("ip_address", VStr (cps "10.0.0.2")); ("gateway_ip_address", VStr (cps "10.0.0.1")); ("netmask", VInt 24)].
Ltac octets := repeat apply Forall_cons; try apply Forall_nil; unfold isbyte; lia.
Lemma example_mac_text : mac_text example_mac [0; 0x11; 0x22; 0xAA; 0xBB; 0xCC] /\ lower_mac example_mac.
Proof. apply (join_mac [0; 0x11; 0x22; 0xAA; 0xBB; 0xCC]); [octets | discriminate]. Qed.
Lemma example_text : has_text example_common "server_address" 4 [97; 46; 98; 0] /\ text_received [97; 46; 98; 0] (VStr (cps "a.b")).
Proof.
  split; [exists (cps "a.b"), [97; 46; 98]; repeat split; cbn; lia|]. exists (cps "a.b"), [97; 46; 98], 1%nat. repeat split. discriminate.
Qed.
Example C59_common_ok : forall rest, common_sent (example_common ++ rest)%list example_octets.
Proof.
  intros rest. exists 1400, [0; 0x11; 0x22; 0xAA; 0xBB; 0xCC], 443, 30, 4, [97; 46; 98; 0].
  split; [exists (VInt 1400); repeat split; lia|]. split; [exists example_mac; repeat split; apply example_mac_text|]. split; [exists (VInt 443); repeat split; lia|].
  split; [exists (VInt 30); repeat split; lia|]. split; [exists (VInt 4); repeat split; lia|]. split; [|reflexivity]. exact (proj1 example_text).
Qed.
Example C59_common_in : common_received example_octets example_common.
Proof.
  exists 1400, [0; 0x11; 0x22; 0xAA; 0xBB; 0xCC], 443, 30, [97; 46; 98; 0], example_mac, (VStr (cps "a.b")). do 3 (split; [lia|]). split; [octets|]. split; [reflexivity|]. split; [cbn; lia|].
  split; [apply example_mac_text|]. split; [apply example_mac_text|]. split; [apply example_text|]. split; reflexivity.
Qed.
Lemma example_message sn sz d : gateway_message [("opcode", VInt 0xF03601); ("silvair_gateway", VDict [("subopcode", VInt sz); (lower sn, VDict d)])] sn sz d <-> lower sn <> "subopcode".
Proof.
  split.
  - intros (op & p & sop & _ & _ & H3 & H4 & H5 & H6) E. cbn in H3. injection H3 as <-. rewrite E in H6. cbn in H6. discriminate.
  - intros N. eexists _, _, _. repeat (split; [reflexivity|]). cbn [dget]. destruct (String.eqb_spec (lower sn) "subopcode") as [E|_]; [contradiction|]. now rewrite String.eqb_refl.
Qed.
Example C59_auto_example : access_build (VDict [("opcode", VInt 0xF03601); ("silvair_gateway", VDict [("subopcode", VInt 1); ("gateway_configuration_set", VDict example_common)])])
  = Ok ([0xF0; 0x36; 0x01] ++ 1 :: example_octets)%list.
Proof.
  apply (C59_auto_sent [0xF0; 0x36; 0x01] _ example_common example_octets); [apply (ob3 0xF0 0x36 0x01); lia | apply (example_message "GATEWAY_CONFIGURATION_SET" 1); discriminate | | reflexivity].
  pose proof (C59_common_ok []) as H. exact H.
Qed.

Example C59_static_example : access_build (VDict [("opcode", VInt 0xF03601); ("silvair_gateway", VDict [("subopcode", VInt 1); ("gateway_configuration_set", VDict (example_common ++ example_static)%list)])])
  = Ok ([0xF0; 0x36; 0x01] ++ 1 :: example_octets ++ [8; 8; 8; 8; 10; 0; 0; 2; 10; 0; 0; 1; 24])%list.
Proof.
  apply (C59_static_sent [0xF0; 0x36; 0x01] _ (example_common ++ example_static)%list example_octets); [apply (ob3 0xF0 0x36 0x01); lia | apply (example_message "GATEWAY_CONFIGURATION_SET" 1); discriminate | apply C59_common_ok | ].
  exists [8; 8; 8; 8], [10; 0; 0; 2], [10; 0; 0; 1], 24. do 3 (split; [split; [reflexivity | split; [octets | reflexivity]]|]). split; [exists (VInt 24); repeat split; lia | reflexivity].
Qed.
(** the netmask missing: only the DNS server is sent *)
Example C59_dns_example : access_build (VDict [("opcode", VInt 0xF03601); ("silvair_gateway", VDict [("subopcode", VInt 1);
  ("gateway_configuration_set", VDict (example_common ++ [("dns_ip_address", VStr (cps "8.8.8.8")); ("ip_address", VStr (cps "10.0.0.2")); ("gateway_ip_address", VStr (cps "10.0.0.1"))])%list)])])
  = Ok ([0xF0; 0x36; 0x01] ++ 1 :: example_octets ++ [8; 8; 8; 8])%list.
Proof.
  eapply (C59_dns_sent [0xF0; 0x36; 0x01] _ _ example_octets [8; 8; 8; 8] "netmask"); [apply (ob3 0xF0 0x36 0x01); lia | apply (example_message "GATEWAY_CONFIGURATION_SET" 1); discriminate | apply C59_common_ok | | | reflexivity].
  - split; [reflexivity | split; [octets | reflexivity]].
  - right. right. left. reflexivity.
Qed.
Example C59_received_example : access_parse ([0xF0; 0x36; 0x01] ++ 1 :: example_octets ++ [8; 8; 8; 8; 10])%list
  = Ok (gateway_received "GATEWAY_CONFIGURATION_SET" 1 (example_common ++ [("dns_ip_address", VIPv4 [8; 8; 8; 8])])%list).
Proof.
  apply C59_set_accepted; [apply (ob3 0xF0 0x36 0x01); lia | exact C59_common_in | octets | right; left; split; [cbn; lia | reflexivity]].
Qed.
Example C59_status_example : status_received ([200] ++ example_octets ++ [8; 8; 8; 8; 10; 0; 0; 2; 10; 0; 0; 1; 24] ++ [1; 16])%list
  ([("chip_revision_id", VInt 200)] ++ example_common ++ [("dns_ip_address", VIPv4 [8; 8; 8; 8]); ("ip_address", VIPv4 [10; 0; 0; 2]); ("gateway_ip_address", VIPv4 [10; 0; 0; 1]); ("netmask", VInt 24)]
    ++ [("flags", VEnum "DHCP_ENABLED_STATIC_DNS" 1); ("status_code", VEnum "STATUS_UNSPECIFIED_ERROR" 16)])%list.
Proof.
  exists 200, example_octets, example_common. eexists _, _, _, _, _, _. split; [lia|]. split; [exact C59_common_in|].
  split; [exists [8; 8; 8; 8], [10; 0; 0; 2], [10; 0; 0; 1], 24; repeat (split; [first [reflexivity | lia]|]); split; reflexivity|].
  split; [right; left; reflexivity|]. split; [unfold gateway_status_codes; do 16 right; left; reflexivity|]. split; reflexivity.
Qed.
Definition example_address : dict := [("server_port_number", VInt 443); ("server_address_length", VInt 4); ("server_address", VStr (cps "a.b"))].
Example C59_address_example : access_build (VDict [("opcode", VInt 0xF03601); ("silvair_gateway", VDict [("subopcode", VInt 6); ("server_address_and_port_number_set", VDict example_address)])])
    = Ok ([0xF0; 0x36; 0x01] ++ 6 :: [0xBB; 1; 4; 97; 46; 98; 0])%list
  /\ access_parse ([0xF0; 0x36; 0x01] ++ 6 :: [0xBB; 1; 4; 97; 46; 98; 0] ++ [9])%list = Ok (gateway_received "SERVER_ADDRESS_AND_PORT_NUMBER_SET" 6 example_address).
Proof.
  split.
  - apply (C59_address_sent [0xF0; 0x36; 0x01] _ example_address [0xBB; 1; 4; 97; 46; 98; 0]); [apply (ob3 0xF0 0x36 0x01); lia | apply (example_message "SERVER_ADDRESS_AND_PORT_NUMBER_SET" 6); discriminate | ].
    exists 443, 4, [97; 46; 98; 0]. split; [exists (VInt 443); repeat split; lia|]. split; [exists (VInt 4); repeat split; lia|]. split; [|reflexivity].
    exists (cps "a.b"), [97; 46; 98]. repeat split. cbn. lia.
  - apply (C59_address_accepted [0xF0; 0x36; 0x01] [0xBB; 1; 4; 97; 46; 98; 0] example_address [9]); [apply (ob3 0xF0 0x36 0x01); lia|].
    exists 443, [97; 46; 98; 0], (VStr (cps "a.b")). split; [lia|]. split; [cbn; lia|]. split; [apply example_text|]. split; reflexivity.
Qed.
Print Assumptions C59_address_sent.
Print Assumptions C59_address_accepted.
Print Assumptions C59_address_received.
Print Assumptions C59_auto_sent.
Print Assumptions C59_dns_sent.
Print Assumptions C59_static_sent.
Print Assumptions C59_status_sent.
Print Assumptions C59_set_accepted.
Print Assumptions C59_set_received.
Print Assumptions C59_status_accepted.
Print Assumptions C59_status_received.

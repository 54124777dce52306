(** * P_text: text fields (C39). *)
From Verif Require Import PyVal Bits Utf8 Adapters Construct Size Spec Master AdapterSpec Access AccessProofs Conform Deps Doc Uses
  G_properties G_debug G_debugV2 G_gateway P_layout P_params.

(** *** UTF-8: decoding and encoding are inverse; only Unicode scalar values can be encoded *)
Theorem C39_utf8_decode_encode : forall t l, utf8_encode t = Some l -> utf8_decode l = Some t /\ bytes l.
Proof. intros t l H. split; [now apply utf8_decode_encode|now apply (utf8_encode_bytes t)]. Qed.
Theorem C39_utf8_encode_decode : forall l t, bytes l -> utf8_decode l = Some t -> utf8_encode t = Some l.
Proof. intros l t B H. exact (utf8_encode_decode (length l) l t (le_n _) B H). Qed.
Theorem C39_utf8_domain : forall t, (exists l, utf8_encode t = Some l) <-> Forall (fun c => 0 <= c <= 0xD7FF \/ 0xE000 <= c <= 0x10FFFF) t.
Proof.
  assert (S : forall c, scalar c = true <-> 0 <= c <= 0xD7FF \/ 0xE000 <= c <= 0x10FFFF) by (intros c; unfold scalar; lia).
  induction t as [|c t IH]; cbn [utf8_encode].
  - split; [constructor|]. eexists. reflexivity.
  - split.
    + intros (l & H). destruct (scalar c) eqn:E; [|discriminate]. constructor; [now apply S|]. apply IH. destruct (utf8_encode t); [eauto|discriminate].
    + intros H. inversion H as [|x y H1 H2]; subst. apply S in H1. rewrite H1. apply IH in H2 as (l & ->). eauto.
Qed.
(** ASCII text is sent as it is *)
Theorem C39_utf8_ascii : forall t, Forall (fun c => 0 <= c < 128) t -> utf8_encode t = Some t.
Proof.
  induction 1 as [|c t Hc _ IH]; [reflexivity|]. cbn [utf8_encode]. rewrite IH. unfold scalar, enc1.
  replace ((0 <=? c) && (c <=? 1114111) && negb ((55296 <=? c) && (c <=? 57343))) with true by lia.
  destruct (Z.ltb_spec c 128); [reflexivity|lia].
Qed.
Print Assumptions C39_utf8_decode_encode.
Print Assumptions C39_utf8_encode_decode.
Print Assumptions C39_utf8_domain.
Print Assumptions C39_utf8_ascii.

(** *** Fields of a fixed size *)
(** Built exactly when the encoded text fits: the encoded text, then zeros; never cut. *)
Theorem C39_fixed_build : forall n t s, 0 <= n ->
  (build_msg (CPaddedString (EConst n)) (VStr t) = Ok s <->
   exists l, utf8_encode t = Some l /\ Z.of_nat (length l) <= n /\ s = l ++ repeat 0 (Z.to_nat n - length l)).
Proof.
  intros n t s Hn. unfold build_msg. cbn [build eval bind]. destruct (Z.ltb_spec n 0); [lia|]. destruct (utf8_encode t) as [l|].
  - destruct (Z.leb_spec (Z.of_nat (length l)) n).
    + split; [intros E; injection E as <-; eauto|]. intros (l' & E & _ & ->). now injection E as <-.
    + split; [discriminate|]. intros (l' & E & L & _). injection E as <-. lia.
  - split; [discriminate|]. now intros (l' & E & _).
Qed.
(** Text that does not fit, or cannot be encoded, is an error. *)
Theorem C39_fixed_rejects : forall n t, 0 <= n -> (forall l, utf8_encode t = Some l -> n < Z.of_nat (length l)) -> exists e, build_msg (CPaddedString (EConst n)) (VStr t) = Err e.
Proof.
  intros n t Hn H. destruct (build_msg (CPaddedString (EConst n)) (VStr t)) as [s|e|] eqn:E; [|eauto|exfalso; eapply build_nodiv; exact E].
  apply C39_fixed_build in E as (l & El & L & _); [|exact Hn]. apply H in El. lia.
Qed.
(** What is received: the octets without the NULs at the end, if they are UTF-8; an error otherwise. *)
Theorem C39_fixed_parse : forall n l k r, (length l + k = n)%nat -> last l 1 <> 0 ->
  parse (CPaddedString (EConst (Z.of_nat n))) [] (l ++ repeat 0 k ++ r) = match utf8_decode l with Some t => Ok (VStr t, r) | None => Err EOther end.
Proof.
  intros n l k r Hn Hl. cbn [parse eval bind]. destruct (Z.ltb_spec (Z.of_nat n) 0); [lia|]. rewrite Nat2Z.id, app_assoc.
  rewrite take_app' by (rewrite app_length, repeat_length; lia). cbn [bind]. rewrite strip_nul_app, strip_nul_last by exact Hl. reflexivity.
Qed.
(** Round trip, for text without NULs at the end. *)
Theorem C39_fixed_round_trip : forall n t l s r, 0 <= n -> utf8_encode t = Some l -> last t 1 <> 0 -> build_msg (CPaddedString (EConst n)) (VStr t) = Ok s ->
  parse (CPaddedString (EConst n)) [] (s ++ r) = Ok (VStr t, r).
Proof.
  intros n t l s r Hn El Hl B. apply C39_fixed_build in B as (l' & E & L & ->); [|exact Hn]. rewrite El in E. injection E as <-.
  assert (last l 1 <> 0) as Hl'.
  { clear - El Hl. revert l El. induction t as [|c t IH]; intros l El; cbn [utf8_encode] in El; [now injection El as <-|].
    destruct (scalar c) eqn:Sc; [|discriminate]. destruct (utf8_encode t) as [l0|] eqn:E0; [|discriminate]. injection El as <-.
    destruct t as [|c1 t].
    - cbn in E0. injection E0 as <-. rewrite app_nil_r. cbn [last] in Hl. unfold scalar in Sc. unfold enc1.
      destruct (Z.ltb_spec c 128); [cbn [last]; lia|]. destruct (Z.ltb_spec c 2048); [cbn [last]; lia|]. destruct (Z.ltb_spec c 65536); cbn [last]; lia.
    - assert (last l0 1 <> 0) as K by (apply IH; [exact Hl|reflexivity]). destruct l0 as [|b l0].
      + exfalso. cbn [utf8_encode] in E0. destruct (scalar c1); [|discriminate]. destruct (utf8_encode t); [|discriminate]. injection E0 as E0. unfold enc1 in E0.
        destruct (c1 <? 128); [discriminate|]. destruct (c1 <? 2048); [discriminate|]. destruct (c1 <? 65536); discriminate.
      + clear - K. induction (enc1 c) as [|x e IHe]; [exact K|]. cbn [app]. cbn [last]. destruct (e ++ b :: l0) eqn:E; [now destruct e|]. exact IHe. }
  rewrite <- app_assoc. rewrite <- (Z2Nat.id n) at 1 by exact Hn. rewrite C39_fixed_parse by (lia || exact Hl'). now rewrite (utf8_decode_encode _ _ El).
Qed.
(** NULs at the end of a text are lost. *)
Theorem C39_trailing_nul : exists s, build_msg (CPaddedString (EConst 8)) (VStr [97; 0]) = Ok s /\ parse_msg (CPaddedString (EConst 8)) s = Ok (VStr [97]).
Proof. exists [97; 0; 0; 0; 0; 0; 0; 0]. split; reflexivity. Qed.
Print Assumptions C39_fixed_build.
Print Assumptions C39_fixed_rejects.
Print Assumptions C39_fixed_parse.
Print Assumptions C39_fixed_round_trip.
(** Device and luminaire properties also take the encoded octets. *)
Theorem C39_fixed_property_bytes : forall n t l, utf8_encode t = Some l ->
  build_msg (CAdapt AFixedString (CPaddedString (EConst n))) (VBytes l) = build_msg (CPaddedString (EConst n)) (VStr t).
Proof. intros n t l H. unfold build_msg. cbn [build encode fixed_string_encode]. rewrite (utf8_decode_encode _ _ H). reflexivity. Qed.
Theorem C39_fixed_property_str : forall n t, build_msg (CAdapt AFixedString (CPaddedString (EConst n))) (VStr t) = build_msg (CPaddedString (EConst n)) (VStr t).
Proof. reflexivity. Qed.
Theorem C39_fixed_property_parse : forall n s, parse_msg (CAdapt AFixedString (CPaddedString (EConst n))) s = parse_msg (CPaddedString (EConst n)) s.
Proof.
  intros n s. unfold parse_msg. change (parse (CAdapt AFixedString (CPaddedString (EConst n))) [] s) with (let* q := parse (CPaddedString (EConst n)) [] s in let (w, r) := (q : val * list Z) in let* v := decode AFixedString w in Ok (v, r)).
  destruct (parse (CPaddedString (EConst n)) [] s) as [[w r]|e|]; reflexivity.
Qed.
Theorem C39_not_text_rejected : forall n v, (forall t, v <> VStr t) -> 0 <= n -> exists e, build_msg (CPaddedString (EConst n)) v = Err e.
Proof. intros n v H Hn. unfold build_msg. cbn [build eval bind]. destruct (Z.ltb_spec n 0); [lia|]. destruct v; eauto. edestruct H; reflexivity. Qed.

(** *** Text with a length octet in front (debug arguments) *)
Theorem C39_pascal_build : forall t s, build_msg CPascalString (VStr t) = Ok s <-> exists l, utf8_encode t = Some l /\ (length l < 256)%nat /\ s = Z.of_nat (length l) :: l.
Proof.
  intros t s. unfold build_msg. cbn [build]. destruct (utf8_encode t) as [l|]; [|split; [discriminate|now intros (l & E & _)]].
  destruct (Z.ltb_spec (Z.of_nat (length l)) 256).
  - split; [intros E; injection E as <-; exists l; repeat split; lia|]. intros (l' & E & _ & ->). now injection E as <-.
  - split; [discriminate|]. intros (l' & E & L & _). injection E as <-. lia.
Qed.
Theorem C39_pascal_parse : forall l r, parse CPascalString [] (Z.of_nat (length l) :: l ++ r) = match utf8_decode l with Some t => Ok (VStr t, r) | None => Err EOther end.
Proof. intros l r. cbn [parse]. rewrite Nat2Z.id, take_app' by reflexivity. reflexivity. Qed.
Theorem C39_pascal_round_trip : forall t s r, build_msg CPascalString (VStr t) = Ok s -> parse CPascalString [] (s ++ r) = Ok (VStr t, r).
Proof. intros t s r H. apply C39_pascal_build in H as (l & E & _ & ->). cbn [app]. rewrite C39_pascal_parse. now rewrite (utf8_decode_encode _ _ E). Qed.
(** *** Text up to the end of the message (fault text, version) *)
Theorem C39_greedy : forall t s, build_msg CGreedyString (VStr t) = Ok s -> utf8_encode t = Some s /\ parse_msg CGreedyString s = Ok (VStr t).
Proof.
  intros t s. unfold build_msg, parse_msg. cbn [build parse]. destruct (utf8_encode t) as [l|] eqn:E; [|discriminate]. intros H. injection H as <-. split; [reflexivity|]. now rewrite (utf8_decode_encode _ _ E).
Qed.
Theorem C39_greedy_total : forall t l, utf8_encode t = Some l -> build_msg CGreedyString (VStr t) = Ok l.
Proof. intros t l H. unfold build_msg. cbn [build]. now rewrite H. Qed.
Theorem C39_greedy_not_utf8 : forall s, utf8_decode s = None -> exists e, parse_msg CGreedyString s = Err e.
Proof. intros s H. unfold parse_msg. cbn [parse]. rewrite H. cbn. eauto. Qed.
Print Assumptions C39_pascal_build.
Print Assumptions C39_pascal_round_trip.
Print Assumptions C39_greedy.

(** *** Gateway server address: text of the length announced by another field *)
Theorem C39_counted_build : forall k ctx n t s, dget k ctx = Some (VInt n) -> 0 <= n ->
  (build (CPaddedString (EGet k)) ctx (VStr t) = Ok s <-> build_msg (CPaddedString (EConst n)) (VStr t) = Ok s).
Proof. intros k ctx n t s H Hn. unfold build_msg. cbn [build eval]. unfold dgetr. rewrite H. reflexivity. Qed.
Theorem C39_counted_parse : forall k ctx n s, dget k ctx = Some (VInt n) -> parse (CPaddedString (EGet k)) ctx s = parse (CPaddedString (EConst n)) [] s.
Proof. intros k ctx n s H. cbn [parse eval]. unfold dgetr. rewrite H. reflexivity. Qed.

(** *** Every text field of the library is one of these *)
Fixpoint texts (c : con) : list con :=
  match c with
  | CPaddedString _ | CPascalString | CGreedyString => [c]
  | CAdapt _ c1 | CPrefixedArray c1 | CArray _ c1 | CGreedyRange c1 | CBitwise c1 | CBytewise c1 | CReversed _ c1
  | CNamed _ c1 | CIfDefault _ c1 _ => texts c1
  | CStruct fs => texts_fields fs
  | CSelect l => texts_alts l
  | CSwitch _ cs | CEnumSwitchStruct _ cs | CSensorData _ cs => texts_cases cs
  | CSwitchStruct _ kc _ _ cs => texts kc ++ texts_cases cs
  | CProp h _ cs | CSensorSetting h _ cs => texts h ++ texts_cases cs
  | _ => []
  end
with texts_fields (fs : fields) : list con :=
  match fs with
  | FNil => []
  | FCons _ c fs' | FDefault _ c _ fs' | FRebuild _ _ c fs' => texts c ++ texts_fields fs'
  | FPad _ _ fs' | FStopIf _ fs' => texts_fields fs'
  | FBits _ bs fs' => texts_fields bs ++ texts_fields fs'
  end
with texts_cases (cs : cases) : list con :=
  match cs with KNil => [] | KCons _ _ c cs' => texts c ++ texts_cases cs' end
with texts_alts (l : alts) : list con :=
  match l with ANil => [] | ACons c l' => texts c ++ texts_alts l' end.
Definition text_kind (c : con) : bool :=
  match c with
  | CPaddedString (EConst n) => existsb (Z.eqb n) [8; 16; 24; 36; 64]
  | CPaddedString (EGet k) => String.eqb k "server_address_length"
  | CPascalString | CGreedyString => true
  | _ => false
  end.
Theorem C39_coverage : forall n z c f, In (n, z, c) params -> In f (texts c) ->
  (exists m, In m [8; 16; 24; 36; 64] /\ f = CPaddedString (EConst m)) \/ f = CPaddedString (EGet "server_address_length") \/ f = CPascalString \/ f = CGreedyString.
Proof.
  assert (R : forallb (fun p => match p with (n, z, c) => forallb text_kind (texts c) end) params = true) by (vm_compute; reflexivity).
  rewrite forallb_forall in R. intros n z c f H Hf. apply R in H. rewrite forallb_forall in H. apply H in Hf. clear -Hf.
  destruct f as [| | | | | | | |[m|k|k|k] | | | | | | | | | | | | | | | | | | | |]; try discriminate Hf; auto.
  - left. exists m. cbn [text_kind] in Hf. apply existsb_exists in Hf as (x & Hx & E). apply Z.eqb_eq in E. subst. auto.
  - right. left. cbn [text_kind] in Hf. apply String.eqb_eq in Hf. now subst.
Qed.
Print Assumptions C39_coverage.
(** cases: "Zażółć" in a field of 16 octets, and nine octets for eight *)
Example C39_ex_fixed : exists s, build_msg (CPaddedString (EConst 16)) (VStr [90; 97; 380; 243; 322; 263]) = Ok s /\ length s = 16%nat /\ parse_msg (CPaddedString (EConst 16)) s = Ok (VStr [90; 97; 380; 243; 322; 263]).
Proof.
  exists [90; 97; 197; 188; 195; 179; 197; 130; 196; 135; 0; 0; 0; 0; 0; 0]. repeat split; reflexivity.
Qed.
Example C39_ex_long : build_msg (CPaddedString (EConst 8)) (VStr (cps "123456789")) = Err EOther.
Proof. reflexivity. Qed.
Example C39_ex_surrogate : build_msg CGreedyString (VStr [0xD800]) = Err EOther.
Proof. reflexivity. Qed.

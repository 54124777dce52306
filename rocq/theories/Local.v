(** * Local: a parse depends only on the bytes it consumed.

    [loc c] is computed from the declaration: no field of [c] looks at more
    input than it consumes (no open-ended field and no choice by length). *)
From Verif Require Import PyVal Bits Utf8 Adapters Construct Size Master.

(** fixed-width leaf *)
Fixpoint leaf (c : con) : option nat :=
  match c with
  | CInt n _ | CBytesInt n _ | CBits n _ | CIeee n | CBytes n => Some n
  | CAdapt _ c1 => leaf c1
  | _ => None
  end.
Fixpoint leaves (n : nat) (l : alts) : bool :=
  match l with
  | ANil => true
  | ACons c l' => match leaf c with Some m => Nat.eqb m n | None => false end && leaves n l'
  end.

Fixpoint loc (c : con) : bool :=
  match c with
  | CInt _ _ | CBytesInt _ _ | CBits _ _ | CFlag | CIeee _ | CBytes _ => true
  | CGreedyBytes | CGreedyString | CGreedyRange _ => false
  | CPaddedString _ | CPascalString | CPrefixedBytes => true
  | CPrefixedArray c1 | CArray _ c1 => loc c1
  | CStruct fs => locf fs
  | CBitwise c1 | CBytewise c1 => loc c1
  | CReversed _ _ => true
  | CAdapt _ c1 | CNamed _ c1 | CIfDefault _ c1 _ => loc c1
  | CSelect l => match l with ACons c _ => match leaf c with Some n => leaves n l | None => false end | ANil => true end
  | CSwitch _ cs | CEnumSwitchStruct _ cs => lock cs
  | COpcode _ => true
  | CSwitchStruct _ kc _ _ cs => loc kc && lock cs
  | CProp hdr _ cs => loc hdr && lock cs
  | CSensorSetting _ _ _ | CSensorData _ _ => false
  end
with locf (fs : fields) : bool :=
  match fs with
  | FNil => true
  | FCons _ c fs' | FDefault _ c _ fs' | FRebuild _ _ c fs' => loc c && locf fs'
  | FPad _ _ fs' | FStopIf _ fs' | FBits _ _ fs' => locf fs'
  end
with lock (cs : cases) : bool :=
  match cs with KNil => true | KCons _ _ c cs' => loc c && lock cs' end.

Lemma take_inv n s q : take n s = Ok q -> s = fst q ++ snd q /\ length (fst q) = n.
Proof. destruct q as [a r]. apply take_ok. Qed.

(** units consumed, and the same on any continuation *)
Definition local {B} (m : bool) (p : list Z -> res (B * list Z)) : Prop :=
  forall s v r, units m s -> p s = Ok (v, r) ->
    exists a, s = a ++ r /\ forall r', units m r' -> p (a ++ r') = Ok (v, r').

Lemma units_split m a b : units m (a ++ b) -> units m a /\ units m b.
Proof. apply Forall_app. Qed.

Lemma leaf_spec c : forall n, leaf c = Some n -> forall ctx s,
  (length s < n)%nat /\ (exists e, parse c ctx s = Err e) \/
  exists a r, s = a ++ r /\ length a = n /\
    ((exists v, forall r', parse c ctx (a ++ r') = Ok (v, r')) \/ (exists e, forall r', parse c ctx (a ++ r') = Err e)).
Proof.
  assert (Htake : forall n s, (length s < n)%nat /\ take n s = Err EOther \/ exists a r, s = a ++ r /\ length a = n /\ forall r', take n (a ++ r') = Ok (a, r')).
  { intros n s. unfold take at 1. destruct (Nat.leb_spec n (length s)) as [H|H]; [right|left; auto].
    exists (firstn n s), (skipn n s). rewrite firstn_skipn. rewrite firstn_length_le by lia. repeat split; auto.
    intros r'. apply take_app', firstn_length_le. lia. }
  induction c; cbn [leaf]; intros m Hm ctx s; try discriminate;
  try (injection Hm as <-; destruct (Htake n s) as [[H E] | (a & r & -> & Ha & E)];
       [left; split; [exact H|]; cbn [parse]; rewrite E; cbn [bind]; eauto |
        right; exists a, r; repeat split; auto; left; eexists; intros r'; cbn [parse]; rewrite E; cbn [bind]; reflexivity]).
  destruct (IHc m Hm ctx s) as [[H [e E]] | (b & r0 & -> & Ha & [[v E] | [e E]])].
  - left. split; [exact H|]. cbn [parse]. rewrite E. cbn [bind]. eauto.
  - right. exists b, r0. repeat split; auto. destruct (decode a v) as [u|e|] eqn:Ed.
    + left. exists u. intros r'. cbn [parse]. rewrite E. cbn [bind]. now rewrite Ed.
    + right. exists e. intros r'. cbn [parse]. rewrite E. cbn [bind]. now rewrite Ed.
    + now apply decode_nodiv in Ed.
  - right. exists b, r0. repeat split; auto. right. exists e. intros r'. cbn [parse]. now rewrite E.
Qed.

Lemma app_len_inj {A} (a : list A) : forall b c d, length a = length c -> a ++ b = c ++ d -> a = c /\ b = d.
Proof.
  induction a as [|x a IH]; intros b [|y c] d Hl E; try discriminate Hl; [auto|].
  simpl in E. injection E as -> E. destruct (IH b c d) as [-> ->]; auto.
Qed.

Lemma leaves_local m n l : leaves n l = true -> forall ctx, local m (parse_alts l ctx).
Proof.
  induction l as [|c l IH]; intros H ctx s v r Us; cbn [parse_alts]; [discriminate|].
  cbn [leaves] in H. apply andb_prop in H as [Hc Hl]. destruct (leaf c) as [k|] eqn:Ek; [|discriminate].
  apply Nat.eqb_eq in Hc. subst k. destruct (leaf_spec c n Ek ctx s) as [[Hs [e ->]] | (a & r0 & -> & Ha & [[u E] | [e E]])].
  - (* too short for every alternative *)
    clear Us. intros Hp. exfalso. clear IH. revert Hp. induction l as [|c' l IH]; cbn [parse_alts]; [discriminate|].
    cbn [leaves] in Hl. apply andb_prop in Hl as [Hc' Hl']. destruct (leaf c') as [k|] eqn:Ek'; [|discriminate].
    apply Nat.eqb_eq in Hc'. subst k. destruct (leaf_spec c' n Ek' ctx s) as [[_ [e' ->]] | (a & r0 & -> & Ha & _)]; [auto|].
    rewrite app_length in Hs. lia.
  - rewrite E. intros [= <- <-]. exists a. split; [reflexivity|]. intros r' _. now rewrite E.
  - rewrite E. intros Hp. destruct (IH Hl ctx _ _ _ Us Hp) as (a' & Ea & Ha').
    assert (a' = a /\ r = r0) as [-> ->].
    { (* the successful alternative has the same width *)
      destruct l as [|c2 l2]; [discriminate|]. clear IH Ha' E e Ek c.
      revert Hp. set (ll := ACons c2 l2) in *. clearbody ll. clear c2 l2. intros Hp. revert Hl Hp.
      induction ll as [|c' l IHl]; cbn [leaves parse_alts]; [discriminate|]. intros Hl Hp.
      apply andb_prop in Hl as [Hc' Hl']. destruct (leaf c') as [k|] eqn:Ek'; [|discriminate].
      apply Nat.eqb_eq in Hc'. subst k.
      destruct (leaf_spec c' n Ek' ctx (a ++ r0)) as [[Hs _] | (b & q & Eb & Hb & [[u E] | [e E]])].
      - rewrite app_length in Hs. lia.
      - rewrite Eb, E in Hp. injection Hp as <- <-.
        assert (Hab : a = b).
        { apply (f_equal (firstn n)) in Eb. rewrite <- Ha in Eb at 1. rewrite <- Hb in Eb at 1.
          now rewrite !firstn_app, !Nat.sub_diag, !firstn_all, !app_nil_r in Eb. }
        subst b. apply app_inv_head in Eb. subst q. split; [|reflexivity].
        apply app_inv_tail in Ea. congruence.
      - rewrite Eb, E in Hp. rewrite <- Eb in Hp. auto. }
    exists a. split; [reflexivity|]. intros r' Ur'. rewrite E. auto.
Qed.

Lemma times_local m p n : local m p -> local m (times_parse p n).
Proof.
  intros Hp. induction n as [|n IH]; intros s l r Us H; cbn [times_parse] in H.
  - injection H as <- <-. exists []. split; [reflexivity|]. reflexivity.
  - bind_inv H. destruct (Hp _ _ _ Us E) as (a & -> & Ha). apply units_split in Us as [U1 U2].
    bind_inv H. injection H as <- <-. destruct (IH _ _ _ U2 E0) as (b & -> & Hb). apply units_split in U2 as [U2 U3].
    exists (a ++ b). split; [now rewrite app_assoc|]. intros r' Ur. cbn [times_parse]. rewrite <- app_assoc, Ha by (apply Forall_app; auto).
    cbn [bind]. rewrite Hb by auto. reflexivity.
Qed.

Lemma bytes2bits_split a rb s : bytes s -> bytes rb -> bytes2bits s = a ++ bytes2bits rb ->
  exists p, s = p ++ rb /\ a = bytes2bits p.
Proof.
  intros Hs Hr E. pose proof (f_equal (@length _) E) as El. rewrite app_length, !bytes2bits_length in El.
  set (n := (length s - length rb)%nat). exists (firstn n s).
  rewrite <- (firstn_skipn n s) in E at 1. rewrite bytes2bits_app in E.
  assert (Hl : length (bytes2bits (firstn n s)) = length a) by (rewrite bytes2bits_length, firstn_length; subst n; lia).
  apply app_len_inj in E as [E1 E2]; [|exact Hl]. split; [|auto].
  rewrite <- (firstn_skipn n s) at 1. f_equal.
  assert (Hsk : bytes (skipn n s)) by (rewrite <- (firstn_skipn n s) in Hs; apply Forall_app in Hs; tauto).
  pose proof (bits2bytes_bytes2bits' _ Hsk) as H1. rewrite E2, bits2bytes_bytes2bits' in H1 by exact Hr. now injection H1.
Qed.

Lemma opcode_local m : local m opcode_parse.
Proof.
  intros s z r _ H. destruct s as [|a s]; [discriminate|]. cbn [opcode_parse] in H.
  destruct (a =? 127) eqn:E1; [discriminate|]. destruct (a <? 128) eqn:E2.
  { injection H as <- <-. exists [a]. split; [reflexivity|]. intros r' _. cbn [app opcode_parse]. now rewrite E1, E2. }
  destruct s as [|b s]; [discriminate|]. destruct (a <? 192) eqn:E3.
  { injection H as <- <-. exists [a; b]. split; [reflexivity|]. intros r' _. cbn [app opcode_parse]. now rewrite E1, E2, E3. }
  destruct s as [|c s]; [discriminate|].
  injection H as <- <-. exists [a; b; c]. split; [reflexivity|]. intros r' _. cbn [app opcode_parse]. now rewrite E1, E2, E3.
Qed.

Ltac spl H := repeat (apply andb_prop in H; let H2 := fresh "W" in destruct H as [H H2]).
Ltac tk E := let E1 := fresh "E" in let E2 := fresh "L" in pose proof (take_ok _ _ _ _ E) as [E1 E2]; subst.

Theorem parse_local_mut :
  (forall c m ctx, wf m c = true -> loc c = true -> local m (parse c ctx)) /\
  (forall fs m obj, wff m fs = true -> locf fs = true -> local m (parse_fields fs obj)) /\
  (forall cs z m ctx, wfk m cs = true -> lock cs = true -> local m (parse_case z cs ctx)) /\
  (forall l : alts, True).
Proof.
  apply con_mutind; try (intros; exact I).
  - (* CInt *) intros n sg m ctx _ _ s v r Us H. cbn [parse] in H. bind_inv H. injection H as <- <-. tk E.
    exists l. split; [reflexivity|]. intros r' _. cbn [parse]. now rewrite take_app.
  - intros n sg m ctx _ _ s v r Us H. cbn [parse] in H. bind_inv H. injection H as <- <-. tk E.
    exists l. split; [reflexivity|]. intros r' _. cbn [parse]. now rewrite take_app.
  - intros n sg m ctx _ _ s v r Us H. cbn [parse] in H. bind_inv H. injection H as <- <-. tk E.
    exists l. split; [reflexivity|]. intros r' _. cbn [parse]. now rewrite take_app.
  - (* CFlag *) intros m ctx _ _ s v r Us H. cbn [parse] in H. destruct s as [|b s]; [discriminate|]. injection H as <- <-.
    exists [b]. split; [reflexivity|]. reflexivity.
  - intros n m ctx _ _ s v r Us H. cbn [parse] in H. bind_inv H. injection H as <- <-. tk E.
    exists l. split; [reflexivity|]. intros r' _. cbn [parse]. now rewrite take_app.
  - intros n m ctx _ _ s v r Us H. cbn [parse] in H. bind_inv H. injection H as <- <-. tk E.
    exists l. split; [reflexivity|]. intros r' _. cbn [parse]. now rewrite take_app.
  - discriminate.
  - discriminate.
  - (* CPaddedString *) intros e m ctx _ _ s v r Us H. cbn [parse] in H. bind_inv H. destruct (q <? 0) eqn:Eq; [discriminate|].
    bind_inv H. tk E0. destruct (utf8_decode (strip_nul l)) eqn:Eu; [|discriminate]. injection H as <- <-.
    exists l. split; [reflexivity|]. intros r' _. cbn [parse]. rewrite E. cbn [bind]. rewrite Eq, take_app' by auto. cbn [bind].
    now rewrite Eu.
  - (* CPascalString *) intros m ctx _ _ s v r Us H. cbn [parse] in H. destruct s as [|n s]; [discriminate|].
    bind_inv H. tk E. destruct (utf8_decode l) eqn:Eu; [|discriminate]. injection H as <- <-.
    exists (n :: l). split; [reflexivity|]. intros r' _. cbn [parse app]. rewrite take_app' by auto. cbn [bind].
    now rewrite Eu.
  - (* CPrefixedBytes *) intros m ctx _ _ s v r Us H. cbn [parse] in H. destruct s as [|n s]; [discriminate|].
    bind_inv H. tk E. injection H as <- <-.
    exists (n :: l). split; [reflexivity|]. intros r' _. cbn [parse app]. rewrite take_app' by auto. reflexivity.
  - (* CPrefixedArray *) intros c IH m ctx W L s v r Us H. cbn [parse] in H. cbn [wf] in W. spl W. cbn [loc] in L.
    destruct s as [|n s]; [discriminate|]. bind_inv H. injection H as <- <-. inversion_clear Us.
    destruct (times_local m _ (Z.to_nat n) (IH m ctx W0 L) _ _ _ H0 E) as (a & -> & Ha).
    exists (n :: a). split; [reflexivity|]. intros r' Ur. cbn [parse app]. rewrite Ha by auto. reflexivity.
  - (* CArray *) intros e c IH m ctx W L s v r Us H. cbn [parse] in H. cbn [wf] in W. spl W. cbn [loc] in L.
    bind_inv H. destruct (q <? 0) eqn:Eq; [discriminate|]. bind_inv H. injection H as <- <-.
    destruct (times_local m _ (Z.to_nat q) (IH m ctx W0 L) _ _ _ Us E0) as (a & -> & Ha).
    exists a. split; [reflexivity|]. intros r' Ur. cbn [parse]. rewrite E. cbn [bind]. rewrite Eq, Ha by auto. reflexivity.
  - discriminate.
  - (* CStruct *) intros fs IH m ctx W L s v r Us H. cbn [parse] in H. bind_inv H. injection H as <- <-.
    destruct (IH m [] W L _ _ _ Us E) as (a & -> & Ha). exists a. split; [reflexivity|].
    intros r' Ur. cbn [parse]. rewrite Ha by auto. reflexivity.
  - (* CBitwise *) intros c IH m ctx W L s v r Us H. cbn [parse] in H. cbn [wf] in W. spl W. cbn [loc] in L.
    destruct m; [discriminate|]. bind_inv H. destruct (bits2bytes l) as [rb lo] eqn:Eb. destruct lo; [|discriminate]. injection H as <- <-.
    destruct (IH true ctx W1 L _ _ _ (bytes2bits_bits s) E) as (a & Ea & Ha).
    assert (Hl : units true l) by (pose proof (bytes2bits_bits s) as Hb; rewrite Ea in Hb; now apply Forall_app in Hb).
    destruct (bits2bytes_spec l Hl _ _ Eb) as (El & Hrb & _). rewrite app_nil_r in El. subst l.
    destruct (bytes2bits_split a rb s Us Hrb Ea) as (p & -> & ->). exists p. split; [reflexivity|].
    intros r' Ur. cbn [parse]. rewrite bytes2bits_app, Ha by apply bytes2bits_bits. cbn [bind].
    now rewrite bits2bytes_bytes2bits' by exact Ur.
  - (* CBytewise *) intros c IH m ctx W L s v r Us H. cbn [parse] in H. cbn [wf] in W. spl W. cbn [loc] in L.
    destruct m; [|discriminate]. destruct (bits2bytes s) as [bs lo] eqn:Eb. destruct (bits2bytes_spec s Us _ _ Eb) as (-> & Hbs & Hlo).
    bind_inv H. injection H as <- <-. destruct (IH false ctx W0 L _ _ _ Hbs E) as (a & -> & Ha).
    exists (bytes2bits a). split; [now rewrite bytes2bits_app, app_assoc|]. intros r' Ur. cbn [parse].
    destruct (bits2bytes r') as [b2 lo2] eqn:E2. destruct (bits2bytes_spec r' Ur _ _ E2) as (-> & Hb2 & Hlo2).
    apply Forall_app in Hbs as [Hba _].
    rewrite app_assoc, <- bytes2bits_app, bits2bytes_bytes2bits by (auto; apply Forall_app; auto).
    rewrite Ha by auto. reflexivity.
  - (* CReversed *) intros n c IH m ctx W L s v r Us H. cbn [parse] in H. bind_inv H. tk E. bind_inv H. destruct l1; [|discriminate].
    injection H as <- <-. exists l. split; [reflexivity|]. intros r' Ur. cbn [parse]. rewrite take_app' by auto. cbn [bind].
    rewrite E0. reflexivity.
  - (* CAdapt *) intros a c IH m ctx W L s v r Us H. cbn [parse] in H. bind_inv H. bind_inv H. injection H as <- <-.
    destruct (IH m ctx W L _ _ _ Us E) as (b & -> & Hb). exists b. split; [reflexivity|]. intros r' Ur. cbn [parse].
    rewrite Hb by auto. cbn [bind]. rewrite E0. reflexivity.
  - (* CSelect *) intros l _ m ctx W L. cbn [loc] in L. destruct l as [|c l].
    + intros s v r _ H. discriminate.
    + destruct (leaf c) as [n|]; [|discriminate]. exact (leaves_local m n _ L ctx).
  - (* CNamed *) intros name c IH m ctx W L s v r Us H. cbn [parse] in H. bind_inv H. destruct v0; try discriminate. injection H as <- <-.
    destruct (IH m ctx W L _ _ _ Us E) as (b & -> & Hb). exists b. split; [reflexivity|]. intros r' Ur. cbn [parse].
    rewrite Hb by auto. reflexivity.
  - (* CSwitch *) intros k cs IH m ctx W L s v r Us H. cbn [parse] in H. cbn [wf] in W. spl W. bind_inv H.
    destruct (int_key q) as [z|] eqn:Ez.
    + destruct (IH z m ctx W0 L _ _ _ Us H) as (a & -> & Ha). exists a. split; [reflexivity|]. intros r' Ur. cbn [parse].
      rewrite E. cbn [bind]. rewrite Ez. auto.
    + injection H as <- <-. exists []. split; [reflexivity|]. intros r' Ur. cbn [parse]. rewrite E. cbn [bind]. rewrite Ez. auto.
  - (* CEnumSwitchStruct *) intros k cs IH m ctx W L s v r Us H. cbn [parse] in H. cbn [wf] in W. spl W. bind_inv H.
    destruct q; try discriminate. bind_inv H. injection H as <- <-.
    destruct (IH z m ctx W0 L _ _ _ Us E0) as (a & -> & Ha). exists a. split; [reflexivity|]. intros r' Ur. cbn [parse].
    rewrite E. cbn [bind]. rewrite Ha by auto. reflexivity.
  - (* CIfDefault *) intros k c IH d m ctx W L s v r Us H. cbn [parse] in H. cbn [wf] in W. spl W. bind_inv H.
    destruct (truthy q) eqn:Et.
    + destruct (IH m ctx W1 L _ _ _ Us H) as (a & -> & Ha). exists a. split; [reflexivity|]. intros r' Ur. cbn [parse].
      rewrite E. cbn [bind]. rewrite Et. auto.
    + injection H as <- <-. exists []. split; [reflexivity|]. intros r' Ur. cbn [parse]. rewrite E. cbn [bind]. rewrite Et. auto.
  - (* COpcode *) intros t m ctx _ _ s v r Us H. cbn [parse] in H. bind_inv H. destruct (by_value t z) eqn:Eb; [|discriminate]. injection H as <- <-.
    destruct (opcode_local m _ _ _ Us E) as (a & -> & Ha). exists a. split; [reflexivity|]. intros r' Ur. cbn [parse].
    rewrite Ha by auto. cbn [bind]. now rewrite Eb.
  - (* CSwitchStruct *) intros k kc IHk t sw cs IHc m ctx W L s v r Us H. cbn [parse] in H. cbn [wf] in W. spl W. cbn [loc] in L. spl L.
    bind_inv H. destruct v0; try discriminate. bind_inv H. injection H as <- <-.
    destruct (IHk m [] W1 L _ _ _ Us E) as (a & -> & Ha). apply units_split in Us as [Ua Us].
    destruct (IHc z m _ W0 W4 _ _ _ Us E0) as (b & -> & Hb). apply units_split in Us as [Ub Us]. exists (a ++ b). split; [now rewrite app_assoc|].
    intros r' Ur. cbn [parse]. rewrite <- app_assoc, Ha by (apply Forall_app; auto). cbn [bind]. rewrite Hb by auto. reflexivity.
  - (* CProp *) intros hdr IHh t cs IHc m ctx W L s v r Us H. cbn [parse] in H. cbn [wf] in W. spl W. cbn [loc] in L. spl L.
    bind_inv H. destruct v0; try discriminate. bind_inv H. bind_inv H. destruct (by_value t q0) as [x|] eqn:Eb; [|discriminate].
    destruct x; try discriminate. destruct (find_case z cs) eqn:Ef; [|discriminate]. bind_inv H. injection H as <- <-.
    destruct (IHh m ctx W1 L _ _ _ Us E) as (a & -> & Ha). apply units_split in Us as [Ua Us].
    destruct (IHc z m _ W0 W3 _ _ _ Us E2) as (b & -> & Hb). apply units_split in Us as [Ub Us]. exists (a ++ b). split; [now rewrite app_assoc|].
    intros r' Ur. cbn [parse]. rewrite <- app_assoc, Ha by (apply Forall_app; auto). cbn [bind]. rewrite E0. cbn [bind].
    rewrite E1. cbn [bind]. rewrite Eb, Ef, Hb by auto. reflexivity.
  - discriminate.
  - discriminate.
  - (* FNil *) intros m obj _ _ s v r _ H. injection H as <- <-. exists []. auto.
  - (* FCons *) intros k c IHc fs IHf m obj W L s v r Us H. cbn [parse_fields] in H. cbn [wff] in W. spl W. cbn [locf] in L. spl L.
    bind_inv H. destruct (IHc m obj W1 L _ _ _ Us E) as (a & -> & Ha). apply units_split in Us as [Ua Us].
    destruct (IHf m _ W0 W2 _ _ _ Us H) as (b & -> & Hb). apply units_split in Us as [Ub Us]. exists (a ++ b). split; [now rewrite app_assoc|].
    intros r' Ur. cbn [parse_fields]. rewrite <- app_assoc, Ha by (apply Forall_app; auto). cbn [bind]. auto.
  - (* FDefault *) intros k c IHc df fs IHf m obj W L s v r Us H. cbn [parse_fields] in H. cbn [wff] in W. spl W. cbn [locf] in L. spl L.
    bind_inv H. destruct (IHc m obj W1 L _ _ _ Us E) as (a & -> & Ha). apply units_split in Us as [Ua Us].
    destruct (IHf m _ W0 W2 _ _ _ Us H) as (b & -> & Hb). apply units_split in Us as [Ub Us]. exists (a ++ b). split; [now rewrite app_assoc|].
    intros r' Ur. cbn [parse_fields]. rewrite <- app_assoc, Ha by (apply Forall_app; auto). cbn [bind]. auto.
  - (* FRebuild *) intros k e c IHc fs IHf m obj W L s v r Us H. cbn [parse_fields] in H. cbn [wff] in W. spl W. cbn [locf] in L. spl L.
    bind_inv H. destruct (IHc m obj W1 L _ _ _ Us E) as (a & -> & Ha). apply units_split in Us as [Ua Us].
    destruct (IHf m _ W0 W2 _ _ _ Us H) as (b & -> & Hb). apply units_split in Us as [Ub Us]. exists (a ++ b). split; [now rewrite app_assoc|].
    intros r' Ur. cbn [parse_fields]. rewrite <- app_assoc, Ha by (apply Forall_app; auto). cbn [bind]. auto.
  - (* FPad *) intros k n fs IHf m obj W L s v r Us H. cbn [parse_fields] in H. cbn [wff] in W. cbn [locf] in L.
    bind_inv H. tk E. apply units_split in Us as [Ua Us]. destruct (IHf m _ W L _ _ _ Us H) as (b & -> & Hb).
    exists (l ++ b). split; [now rewrite app_assoc|].
    intros r' Ur. cbn [parse_fields]. rewrite <- app_assoc, take_app' by auto. cbn [bind]. auto.
  - (* FStopIf *) intros k fs IHf m obj W L s v r Us H. cbn [parse_fields] in H. cbn [wff] in W. spl W. cbn [locf] in L.
    bind_inv H. match type of H with (if ?b then _ else _) = _ => destruct b eqn:Ez end.
    + injection H as <- <-. exists []. split; [reflexivity|]. intros r' _. cbn [parse_fields app]. rewrite E. cbn [bind]. now rewrite Ez.
    + destruct (IHf m _ W0 L _ _ _ Us H) as (b & -> & Hb). exists b. split; [reflexivity|]. intros r' Ur. cbn [parse_fields].
      rewrite E. cbn [bind]. rewrite Ez. auto.
  - (* FBits *) intros n bs _ fs IHf m obj W L s v r Us H. cbn [parse_fields] in H. cbn [wff] in W. spl W. cbn [locf] in L.
    bind_inv H. tk E. bind_inv H. destruct l1; [|discriminate]. apply units_split in Us as [Ua Us].
    destruct (IHf m _ W0 L _ _ _ Us H) as (b & -> & Hb). exists (l ++ b). split; [now rewrite app_assoc|].
    intros r' Ur. cbn [parse_fields]. rewrite <- app_assoc, take_app' by auto. cbn [bind]. rewrite E0. cbn [bind]. auto.
  - (* KNil *) intros z m ctx _ _ s v r _ H. injection H as <- <-. exists []. auto.
  - (* KCons *) intros n w c IHc cs IHk z m ctx W L. cbn [wfk] in W. spl W. cbn [lock] in L. spl L. 
    intros s v r Us H. cbn [parse_case] in *. destruct (z =? w) eqn:Ez.
    + destruct (IHc m ctx W L _ _ _ Us H) as (a & -> & Ha). exists a. split; [reflexivity|]. intros r' Ur. auto.
    + destruct (IHk z m ctx W0 W1 _ _ _ Us H) as (a & -> & Ha). exists a. split; [reflexivity|]. intros r' Ur. auto.
Qed.

Theorem parse_local c ctx s v r : wf false c = true -> loc c = true -> bytes s -> parse c ctx s = Ok (v, r) ->
  exists a, s = a ++ r /\ forall r', bytes r' -> parse c ctx (a ++ r') = Ok (v, r').
Proof. intros W L. exact (proj1 parse_local_mut c false ctx W L s v r). Qed.

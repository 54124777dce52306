(** * Size: how many units (bytes, or bits inside Bitwise) a declaration takes.

    [minsz] is a lower bound of what a successful parse consumes, [fsz] the
    exact number of units built by a declaration of fixed layout, [bmod] the
    number of units built modulo 8.  All three are computed from the
    declaration alone. *)
From Verif Require Import PyVal Bits Utf8 Adapters Construct.

Definition ceil8 (n : nat) : nat := ((n + 7) / 8)%nat.
Definition floor8 (n : nat) : nat := (n / 8)%nat.
Arguments ceil8 : simpl never.
Arguments floor8 : simpl never.

Fixpoint minsz (c : con) : nat :=
  match c with
  | CInt n _ | CBytesInt n _ | CBits n _ | CIeee n | CBytes n => n
  | CFlag => 1
  | CGreedyBytes | CGreedyString => 0
  | CPaddedString (EConst n) => Z.to_nat n
  | CPaddedString _ => 0
  | CPascalString | CPrefixedBytes | CPrefixedArray _ => 1
  | CArray (EConst n) c1 => Z.to_nat n * minsz c1
  | CArray _ _ | CGreedyRange _ => 0
  | CStruct fs => minszf fs
  | CBitwise c1 => ceil8 (minsz c1)
  | CBytewise c1 => 8 * minsz c1
  | CReversed n _ => n
  | CAdapt _ c1 | CNamed _ c1 => minsz c1
  | CSelect l => minsza l
  | CSwitch _ _ | CEnumSwitchStruct _ _ | CIfDefault _ _ _ => 0
  | COpcode _ => 1
  | CSwitchStruct _ kc _ _ _ => minsz kc
  | CProp hdr _ _ | CSensorSetting hdr _ _ => minsz hdr
  | CSensorData _ _ => 2
  end
with minszf (fs : fields) : nat :=
  match fs with
  | FNil => 0
  | FCons _ c fs' | FDefault _ c _ fs' | FRebuild _ _ c fs' => minsz c + minszf fs'
  | FPad _ n fs' => n + minszf fs'
  | FStopIf _ _ => 0
  | FBits n _ fs' => n + minszf fs'
  end
with minsza (l : alts) : nat :=
  match l with
  | ANil => 0
  | ACons c ANil => minsz c
  | ACons c l' => Nat.min (minsz c) (minsza l')
  end.

Definition oadd (a b : option nat) : option nat :=
  match a, b with Some x, Some y => Some (x + y)%nat | _, _ => None end.

Fixpoint fsz (c : con) : option nat :=
  match c with
  | CInt n _ | CBytesInt n _ | CBits n _ | CIeee n | CBytes n => Some n
  | CFlag => Some 1%nat
  | CGreedyBytes | CGreedyString => None
  | CPaddedString (EConst n) => Some (Z.to_nat n)
  | CPaddedString _ => None
  | CPascalString | CPrefixedBytes | CPrefixedArray _ => None
  | CArray (EConst n) c1 => match fsz c1 with Some m => Some (Z.to_nat n * m)%nat | None => None end
  | CArray _ _ | CGreedyRange _ => None
  | CStruct fs => fszf fs
  | CBitwise c1 => match fsz c1 with Some m => Some (floor8 m) | None => None end
  | CBytewise c1 => match fsz c1 with Some m => Some (8 * m)%nat | None => None end
  | CReversed _ c1 => fsz c1
  | CAdapt _ c1 | CNamed _ c1 => fsz c1
  | CSelect l => fsza l
  | CSwitch _ _ | CEnumSwitchStruct _ _ | CIfDefault _ _ _ => None
  | COpcode _ => None
  | CSwitchStruct _ _ _ _ _ => None
  | CProp _ _ _ | CSensorSetting _ _ _ | CSensorData _ _ => None
  end
with fszf (fs : fields) : option nat :=
  match fs with
  | FNil => Some O
  | FCons _ c fs' | FDefault _ c _ fs' | FRebuild _ _ c fs' => oadd (fsz c) (fszf fs')
  | FPad _ n fs' => oadd (Some n) (fszf fs')
  | FStopIf _ _ => None
  | FBits _ bs fs' => match fszf bs with
                      | Some m => oadd (Some (floor8 m)) (fszf fs')
                      | None => None
                      end
  end
with fsza (l : alts) : option nat :=
  match l with
  | ANil => None
  | ACons c ANil => fsz c
  | ACons c l' => match fsz c, fsza l' with
                  | Some x, Some y => if Nat.eqb x y then Some x else None
                  | _, _ => None
                  end
  end.

(** every repeated element consumes at least one unit *)
Fixpoint prod (c : con) : bool :=
  match c with
  | CPrefixedArray c1 | CArray _ c1 => prod c1
  | CGreedyRange c1 => Nat.ltb 0 (minsz c1) && prod c1
  | CStruct fs => prodf fs
  | CBitwise c1 | CBytewise c1 | CReversed _ c1 | CAdapt _ c1 | CNamed _ c1 | CIfDefault _ c1 _ => prod c1
  | CSelect l => proda l
  | CSwitch _ cs | CEnumSwitchStruct _ cs => prodk cs
  | CSwitchStruct _ kc _ _ cs => prod kc && prodk cs
  | CProp hdr _ cs | CSensorSetting hdr _ cs => prod hdr && prodk cs
  | CSensorData _ cs => prodk cs
  | _ => true
  end
with prodf (fs : fields) : bool :=
  match fs with
  | FNil => true
  | FCons _ c fs' | FDefault _ c _ fs' | FRebuild _ _ c fs' => prod c && prodf fs'
  | FPad _ _ fs' | FStopIf _ fs' => prodf fs'
  | FBits _ bs fs' => prodf bs && prodf fs'
  end
with prodk (cs : cases) : bool :=
  match cs with
  | KNil => true
  | KCons _ _ c cs' => prod c && prodk cs'
  end
with proda (l : alts) : bool :=
  match l with
  | ANil => true
  | ACons c l' => prod c && proda l'
  end.

(** ** Elementary facts *)
Lemma take_ok n s a r : take n s = Ok (a, r) -> s = a ++ r /\ length a = n.
Proof.
  unfold take. destruct (Nat.leb_spec n (length s)); [|discriminate].
  intros [= <- <-]. split; [symmetry; apply firstn_skipn | rewrite firstn_length; lia].
Qed.

Lemma take_app a r : take (length a) (a ++ r) = Ok (a, r).
Proof.
  unfold take. destruct (Nat.leb_spec (length a) (length (a ++ r))) as [_|H].
  - f_equal. f_equal.
    + rewrite firstn_app, Nat.sub_diag, firstn_all. apply app_nil_r.
    + rewrite skipn_app, Nat.sub_diag, skipn_all. reflexivity.
  - rewrite app_length in H. lia.
Qed.

Lemma take_app' n a r : length a = n -> take n (a ++ r) = Ok (a, r).
Proof. intros <-. apply take_app. Qed.

Lemma take_nodiv n s : take n s <> Diverge.
Proof. unfold take. destruct (Nat.leb n (length s)); discriminate. Qed.

Lemma bits2bytes_length l bs r : bits2bytes l = (bs, r) -> length l = (8 * length bs + length r)%nat.
Proof.
  remember (length l) as n eqn:Hn. revert l Hn bs r.
  induction n as [n IH] using lt_wf_ind; intros l Hn bs r E.
  do 8 (destruct l as [|? l]; [cbn [bits2bytes] in E; injection E as <- <-; simpl in *; lia|]).
  cbn [bits2bytes] in E. destruct (bits2bytes l) as [bs' r'] eqn:E'. injection E as <- <-.
  simpl in Hn. specialize (IH (length l) ltac:(lia) l eq_refl _ _ E'). simpl. lia.
Qed.

Lemma bind_ok {A B} (r : res A) (f : A -> res B) b :
  bind r f = Ok b -> exists a, r = Ok a /\ f a = Ok b.
Proof. destruct r; simpl; try discriminate. eauto. Qed.

Lemma bind_div {A B} (r : res A) (f : A -> res B) :
  r <> Diverge -> (forall a, r = Ok a -> f a <> Diverge) -> bind r f <> Diverge.
Proof. destruct r; simpl; try discriminate; intros H H'; [exact (H' a eq_refl) | congruence]. Qed.

(** destruct the innermost [let*] of a hypothesis saying that a run succeeded *)
Ltac bind_inv H :=
  let a := fresh "q" in let E := fresh "E" in
  apply bind_ok in H; destruct H as (a & E & H); try (destruct a as [? ?]).

Lemma times_parse_len p m n s l r :
  (forall s v r, p s = Ok (v, r) -> (m + length r <= length s)%nat) ->
  times_parse p n s = Ok (l, r) -> (n * m + length r <= length s)%nat.
Proof.
  intros Hp. revert s l r; induction n as [|n IH]; simpl; intros s l r H.
  - injection H as <- <-. lia.
  - bind_inv H. bind_inv H. injection H as <- <-. apply Hp in E. apply IH in E0. lia.
Qed.

Lemma greedy_len p n s l r :
  (forall s v r, p s = Ok (v, r) -> (length r <= length s)%nat) ->
  greedy p n s = Ok (l, r) -> (length r <= length s)%nat.
Proof.
  intros Hp. revert s l r; induction n as [|n IH]; simpl; intros s l r H; [discriminate|].
  destruct (p s) as [[v r0]|e|] eqn:E; try discriminate.
  - destruct (Nat.ltb_spec (length r0) (length s)); [|discriminate].
    bind_inv H. injection H as <- <-. apply IH in E0. lia.
  - injection H as <- <-. lia.
Qed.

Lemma opcode_parse_len s z r : opcode_parse s = Ok (z, r) -> (1 + length r <= length s)%nat.
Proof.
  unfold opcode_parse. destruct s as [|b0 s]; [discriminate|].
  destruct (b0 =? 127); [discriminate|]. destruct (b0 <? 128); [intros [= <- <-]; simpl; lia|].
  destruct s as [|b1 s]; [discriminate|]. destruct (b0 <? 192); [intros [= <- <-]; simpl; lia|].
  destruct s as [|b2 s]; [discriminate|]. intros [= <- <-]. simpl; lia.
Qed.

Lemma opcode_parse_nodiv s : opcode_parse s <> Diverge.
Proof.
  unfold opcode_parse. destruct s as [|b0 s]; [discriminate|].
  destruct (b0 =? 127); [discriminate|]. destruct (b0 <? 128); [discriminate|].
  destruct s as [|b1 s]; [discriminate|]. destruct (b0 <? 192); [discriminate|].
  destruct s as [|b2 s]; discriminate.
Qed.

(** ** A successful parse consumes at least [minsz] units *)
Lemma parse_len_mut :
  (forall c ctx s v r, parse c ctx s = Ok (v, r) -> (minsz c + length r <= length s)%nat) /\
  (forall fs obj s d r, parse_fields fs obj s = Ok (d, r) -> (minszf fs + length r <= length s)%nat) /\
  (forall cs z ctx s v r, parse_case z cs ctx s = Ok (v, r) -> (length r <= length s)%nat) /\
  (forall l ctx s v r, parse_alts l ctx s = Ok (v, r) -> (minsza l + length r <= length s)%nat).
Proof.
  apply con_mutind; simpl.
  - intros n sg ctx s v r H. bind_inv H. injection H as <- <-. apply take_ok in E as [-> <-]. rewrite app_length. lia.
  - intros n sg ctx s v r H. bind_inv H. injection H as <- <-. apply take_ok in E as [-> <-]. rewrite app_length. lia.
  - intros n sg ctx s v r H. bind_inv H. injection H as <- <-. apply take_ok in E as [-> <-]. rewrite app_length. lia.
  - intros ctx s v r H. destruct s; [discriminate|]. injection H as <- <-. simpl. lia.
  - intros n ctx s v r H. bind_inv H. injection H as <- <-. apply take_ok in E as [-> <-]. rewrite app_length. lia.
  - intros n ctx s v r H. bind_inv H. injection H as <- <-. apply take_ok in E as [-> <-]. rewrite app_length. lia.
  - intros ctx s v r [= <- <-]. simpl. lia.
  - intros ctx s v r H. destruct (utf8_decode s); [|discriminate]. injection H as <- <-. simpl. lia.
  - intros e ctx s v r H. bind_inv H. destruct (q <? 0) eqn:Eq; [discriminate|].
    bind_inv H. destruct (utf8_decode _); [|discriminate]. injection H as <- <-.
    apply take_ok in E0 as [-> E1]. rewrite app_length. destruct e; simpl in E; try (simpl; lia).
    injection E as ->. simpl. lia.
  - intros ctx s v r H. destruct s as [|n s]; [discriminate|]. bind_inv H.
    destruct (utf8_decode _); [|discriminate]. injection H as <- <-. apply take_ok in E as [-> _].
    simpl. rewrite app_length. lia.
  - intros ctx s v r H. destruct s as [|n s]; [discriminate|]. bind_inv H.
    injection H as <- <-. apply take_ok in E as [-> _]. simpl. rewrite app_length. lia.
  - intros c IH ctx s v r H. destruct s as [|n s]; [discriminate|]. bind_inv H.
    injection H as <- <-. apply times_parse_len with (m := minsz c) in E; [simpl; lia | intros; eapply IH; eauto].
  - intros e c IH ctx s v r H. bind_inv H. destruct (q <? 0) eqn:Eq; [discriminate|].
    bind_inv H. injection H as <- <-.
    apply times_parse_len with (m := minsz c) in E0; [|intros; eapply IH; eauto].
    destruct e; simpl in E; try (simpl; lia). injection E as ->. lia.
  - intros c IH ctx s v r H.
    match type of H with bind ?g _ = _ => change g with (greedy (parse c ctx) (S (length s)) s) in H end.
    bind_inv H. injection H as <- <-.
    apply greedy_len in E; [lia | intros s0 v0 r0 H0; apply IH in H0; lia].
  - intros fs IH ctx s v r H. bind_inv H. injection H as <- <-. eapply IH; eauto.
  - intros c IH ctx s v r H. bind_inv H.
    destruct (bits2bytes l) as [r' lo] eqn:Eb. destruct lo; [|discriminate]. injection H as <- <-.
    apply IH in E. rewrite bytes2bits_length in E. apply bits2bytes_length in Eb. simpl in Eb.
    enough (ceil8 (minsz c) < length s - length r' + 1)%nat by lia.
    unfold ceil8. apply Nat.div_lt_upper_bound; lia.
  - intros c IH ctx s v r H. destruct (bits2bytes s) as [bs lo] eqn:Eb. bind_inv H. injection H as <- <-.
    apply IH in E. rewrite app_length, bytes2bits_length. apply bits2bytes_length in Eb. lia.
  - intros n c IH ctx s v r H. bind_inv H. bind_inv H. destruct l1; [|discriminate]. injection H as <- <-.
    apply take_ok in E as [-> E1]. rewrite app_length. lia.
  - intros a c IH ctx s v r H. bind_inv H. bind_inv H. injection H as <- <-. eapply IH; eauto.
  - intros l IH ctx s v r H. eapply IH; eauto.
  - intros n c IH ctx s v r H. bind_inv H. destruct v0; try discriminate. injection H as <- <-. eapply IH; eauto.
  - intros k cs IH ctx s v r H. bind_inv H. destruct (int_key q); [eapply IH; eauto|].
    injection H as <- <-. lia.
  - intros k cs IH ctx s v r H. bind_inv H. destruct q; try discriminate. bind_inv H. injection H as <- <-.
    eapply IH; eauto.
  - intros k c IH d ctx s v r H. bind_inv H. destruct (truthy q); [apply IH in H; lia|].
    injection H as <- <-. lia.
  - intros t ctx s v r H. bind_inv H. destruct (by_value t z); [|discriminate]. injection H as <- <-.
    eapply opcode_parse_len in E. lia.
  - intros k kc IH t sw cs IHc ctx s v r H. bind_inv H. destruct v0; try discriminate. bind_inv H.
    injection H as <- <-. apply IH in E. apply IHc in E0. lia.
  - intros hdr IH t cs IHc ctx s v r H. bind_inv H. destruct v0; try discriminate. bind_inv H. bind_inv H.
    destruct (by_value t q0) as [[]|]; try discriminate. destruct (find_case z cs); [|discriminate].
    bind_inv H. injection H as <- <-. apply IH in E. apply IHc in E2. lia.
  - intros hdr IH t cs IHc ctx s v r H. bind_inv H. destruct v0; try discriminate. bind_inv H.
    destruct (setting_id t q) as [idv nm]. bind_inv H. apply IH in E.
    destruct (find_case q0 cs).
    + bind_inv H. injection H as <- <-. apply IHc in E2. lia.
    + injection H as <- <-. simpl. lia.
  - intros t cs IHc ctx s v r H. destruct s as [|b0 [|b1 s]]; try discriminate.
    bind_inv H. destruct p as [[fmt len] pid].
    assert (Hl : (length l <= length s)%nat).
    { destruct (Z.odd b0).
      - destruct s; [discriminate|]. injection E as <- <- <- <-. simpl. lia.
      - injection E as <- <- <- <-. lia. }
    destruct (setting_id t (VInt pid)) as [idv nm].
    pose proof (skipn_length (Z.to_nat len) l) as Hs.
    destruct (find_case pid cs).
    + bind_inv H. injection H as <- <-. simpl. lia.
    + injection H as <- <-. simpl. lia.
  - intros obj s d r [= <- <-]. lia.
  - intros k c IH fs IHf obj s d r H. bind_inv H. apply IH in E. apply IHf in H. lia.
  - intros k c IH dv fs IHf obj s d r H. bind_inv H. apply IH in E. apply IHf in H. lia.
  - intros k e c IH fs IHf obj s d r H. bind_inv H. apply IH in E. apply IHf in H. lia.
  - intros k n fs IHf obj s d r H. bind_inv H. apply take_ok in E as [-> E]. apply IHf in H. rewrite app_length. lia.
  - intros k fs IHf obj s d r H. bind_inv H. destruct (match num_of q with Some _ => _ | None => _ end).
    + injection H as <- <-. lia.
    + apply IHf in H. lia.
  - intros n bs IHb fs IHf obj s d r H. bind_inv H. bind_inv H. destruct l1; [|discriminate].
    apply take_ok in E as [-> E]. apply IHf in H. rewrite app_length. lia.
  - intros z ctx s v r [= <- <-]. lia.
  - intros n w c IH cs IHc z ctx s v r H. destruct (Z.eqb z w); [apply IH in H; lia | eapply IHc; eauto].
  - intros ctx s v r H. discriminate.
  - intros c IH l IHl ctx s v r H.
    destruct (parse c ctx s) as [[v0 r0]|e|] eqn:E; try discriminate.
    + injection H as <- <-. apply IH in E. destruct l; [exact E|]. lia.
    + specialize (IHl ctx s v r H). destruct l; [discriminate|]. lia.
Qed.

Lemma parse_len c ctx s v r : parse c ctx s = Ok (v, r) -> (minsz c + length r <= length s)%nat.
Proof. apply parse_len_mut. Qed.

(** ** Parsing terminates *)
Lemma times_parse_nodiv p n s : (forall s, p s <> Diverge) -> times_parse p n s <> Diverge.
Proof.
  intros Hp. revert s; induction n as [|n IH]; simpl; intros s; [discriminate|].
  apply bind_div; [apply Hp|]. intros [v r] _. apply bind_div; [apply IH|]. intros [l r'] _. discriminate.
Qed.

Lemma greedy_nodiv p n s :
  (forall s, p s <> Diverge) -> (forall s v r, p s = Ok (v, r) -> (length r < length s)%nat) ->
  (length s < n)%nat -> greedy p n s <> Diverge.
Proof.
  intros Hp Hc. revert s; induction n as [|n IH]; simpl; intros s Hn; [lia|].
  destruct (p s) as [[v r]|e|] eqn:E; [|discriminate | exact (fun _ => Hp s E)].
  pose proof (Hc _ _ _ E) as Hl. destruct (Nat.ltb_spec (length r) (length s)); [|lia].
  apply bind_div; [apply IH; lia|]. intros [l r'] _. discriminate.
Qed.

Lemma eval_nodiv e ctx : eval e ctx <> Diverge.
Proof.
  destruct e; simpl; try discriminate; unfold dgetr, as_intr; destruct (dget k ctx) as [v|]; simpl; try discriminate.
  - destruct (as_int v); discriminate.
  - destruct (vlen v); discriminate.
  - destruct v; try discriminate. destruct d as [|[? x] ?]; try discriminate. destruct (vlen x); discriminate.
Qed.

Lemma dgetr_nodiv k d : dgetr k d <> Diverge.
Proof. unfold dgetr. destruct (dget k d); discriminate. Qed.
Lemma as_intr_nodiv v : as_intr v <> Diverge.
Proof. unfold as_intr. destruct (as_int v); discriminate. Qed.
Lemma geti_nodiv k d : geti k d <> Diverge.
Proof. unfold geti. apply bind_div; [apply dgetr_nodiv | intros; apply as_intr_nodiv]. Qed.

Ltac nodiv :=
  repeat first
    [ discriminate
    | apply bind_div; [| let a := fresh in let H := fresh in intros a H; try (destruct a as [? ?])]
    | apply dgetr_nodiv | apply as_intr_nodiv | apply geti_nodiv | apply take_nodiv | apply eval_nodiv
    | match goal with |- context [match ?x with _ => _ end] => destruct x end ].

Lemma validate_nodiv p v : validate p v <> Diverge.
Proof. unfold validate. nodiv. Qed.
Lemma flatten_nodiv l : flatten_items l <> Diverge.
Proof. induction l as [|[] l IH]; simpl; try discriminate. apply bind_div; [exact IH|]. intros. nodiv. Qed.
Lemma decode_nodiv a w : decode a w <> Diverge.
Proof.
  destruct a; simpl; try apply validate_nodiv;
    unfold enum_decode, log_decode, transition_decode, delay_decode, retransmit_decode, key_indices_decode,
      bitlist_decode, set_decode, mac_decode, ip_decode, date_decode, exp8_decode, time_decode, timestamp_decode;
    try (nodiv; fail).
  destruct w; try discriminate. apply bind_div; [apply flatten_nodiv | discriminate].
Qed.

Lemma datetime_of_nodiv v : datetime_of v <> Diverge.
Proof. unfold datetime_of. nodiv. Qed.
Lemma encode_nodiv a v : encode a v <> Diverge.
Proof.
  destruct a; simpl; try apply validate_nodiv;
    unfold enum_encode, log_encode, count_encode, transition_encode, delay_encode, retransmit_encode, key_indices_encode,
      bitlist_encode, mac_encode, ip_encode, date_encode, exp8_encode, fixed_string_encode;
    try (nodiv; fail).
  - unfold time_encode. destruct v; try discriminate.
    apply bind_div; [apply dgetr_nodiv|]. intros dt _. apply bind_div; [apply datetime_of_nodiv|]. intros [us off] _.
    unfold uncertainty_us, delta_us, delta_to_mesh, zone_to_mesh. nodiv.
  - unfold timestamp_encode. destruct v; try discriminate.
    apply bind_div; [apply dgetr_nodiv|]. intros dt _. apply bind_div; [apply datetime_of_nodiv|]. intros [us off] _.
    unfold delta_us, delta_to_mesh, zone_to_mesh. nodiv.
Qed.

Lemma parse_nodiv_mut :
  (forall c ctx s, prod c = true -> parse c ctx s <> Diverge) /\
  (forall fs obj s, prodf fs = true -> parse_fields fs obj s <> Diverge) /\
  (forall cs z ctx s, prodk cs = true -> parse_case z cs ctx s <> Diverge) /\
  (forall l ctx s, proda l = true -> parse_alts l ctx s <> Diverge).
Proof.
  apply con_mutind; cbn [parse parse_fields parse_case parse_alts prod prodf prodk proda];
    try (intros; nodiv; fail).
  - intros c IH ctx s H. destruct s; [discriminate|]. apply bind_div; [apply times_parse_nodiv; auto|].
    intros [? ?] _. discriminate.
  - intros e c IH ctx s H. apply bind_div; [apply eval_nodiv|]. intros n _. destruct (n <? 0); [discriminate|].
    apply bind_div; [apply times_parse_nodiv; auto|]. intros [? ?] _. discriminate.
  - intros c IH ctx s H. apply andb_prop in H as [Hm Hp]. apply Nat.ltb_lt in Hm.
    apply bind_div; [|intros [? ?] _; discriminate].
    apply greedy_nodiv; [auto | | lia]. intros s' v r E. apply parse_len in E. lia.
  - intros fs IH ctx s H. apply bind_div; [auto|]. intros [? ?] _. discriminate.
  - intros c IH ctx s H. apply bind_div; [auto|]. intros [? ?] _. nodiv.
  - intros c IH ctx s H. destruct (bits2bytes s). apply bind_div; [auto|]. intros [? ?] _. discriminate.
  - intros n c IH ctx s H. apply bind_div; [apply take_nodiv|]. intros [? ?] _.
    apply bind_div; [auto|]. intros [? ?] _. nodiv.
  - intros a c IH ctx s H. apply bind_div; [auto|]. intros [? ?] _. apply bind_div; [apply decode_nodiv|]. discriminate.
  - intros l IH ctx s H. auto.
  - intros n c IH ctx s H. apply bind_div; [auto|]. intros [? ?] _. nodiv.
  - intros k cs IH ctx s H. apply bind_div; [apply dgetr_nodiv|]. intros kv _. destruct (int_key kv); [auto|discriminate].
  - intros k cs IH ctx s H. apply bind_div; [apply dgetr_nodiv|]. intros kv _. destruct kv; try discriminate.
    apply bind_div; [auto|]. intros [? ?] _. discriminate.
  - intros k c IH d ctx s H. apply bind_div; [apply dgetr_nodiv|]. intros kv _. destruct (truthy kv); [auto|discriminate].
  - intros t ctx s H. apply bind_div; [apply opcode_parse_nodiv|]. intros [? ?] _. nodiv.
  - intros k kc IH t sw cs IHc ctx s H. apply andb_prop in H as [H1 H2]. apply bind_div; [auto|]. intros [kv ?] _.
    destruct kv; try discriminate. apply bind_div; [auto|]. intros [? ?] _. discriminate.
  - intros hdr IH t cs IHc ctx s H. apply andb_prop in H as [H1 H2]. apply bind_div; [auto|]. intros [h ?] _.
    destruct h; try discriminate. apply bind_div; [apply dgetr_nodiv|]. intros idv _.
    apply bind_div; [apply as_intr_nodiv|]. intros z _. destruct (by_value t z) as [[]|]; try discriminate.
    destruct (find_case _ cs); [|discriminate]. apply bind_div; [auto|]. intros [? ?] _. discriminate.
  - intros hdr IH t cs IHc ctx s H. apply andb_prop in H as [H1 H2]. apply bind_div; [auto|]. intros [h ?] _.
    destruct h; try discriminate. apply bind_div; [apply dgetr_nodiv|]. intros idv _.
    destruct (setting_id t idv). apply bind_div; [apply as_intr_nodiv|]. intros z _.
    destruct (find_case z cs); [|discriminate]. apply bind_div; [auto|]. intros [? ?] _. discriminate.
  - intros t cs IHc ctx s H. destruct s as [|b0 [|b1 s]]; try discriminate.
    apply bind_div; [destruct (Z.odd b0); [destruct s|]; discriminate|]. intros [[[fmt len] pid] s2] _.
    destruct (setting_id t (VInt pid)). destruct (find_case pid cs); [|discriminate].
    apply bind_div; [auto|]. intros [? ?] _. discriminate.
  - intros k c IH fs IHf obj s H. apply andb_prop in H as [H1 H2]. apply bind_div; [auto|]. intros [? ?] _. auto.
  - intros k c IH d fs IHf obj s H. apply andb_prop in H as [H1 H2]. apply bind_div; [auto|]. intros [? ?] _. auto.
  - intros k e c IH fs IHf obj s H. apply andb_prop in H as [H1 H2]. apply bind_div; [auto|]. intros [? ?] _. auto.
  - intros k n fs IHf obj s H. apply bind_div; [apply take_nodiv|]. intros [? ?] _. auto.
  - intros k fs IHf obj s H. apply bind_div; [apply dgetr_nodiv|]. intros v _.
    destruct (match num_of v with Some _ => _ | None => _ end); [discriminate | auto].
  - intros n bs IHb fs IHf obj s H. apply andb_prop in H as [H1 H2]. apply bind_div; [apply take_nodiv|].
    intros [? ?] _. apply bind_div; [auto|]. intros [? l1] _. destruct l1; [auto|discriminate].
  - intros n w c IH cs IHc z ctx s H. apply andb_prop in H as [H1 H2]. destruct (Z.eqb z w); auto.
  - intros c IH l IHl ctx s H. apply andb_prop in H as [H1 H2].
    specialize (IH ctx s H1). destruct (parse c ctx s); auto; discriminate.
Qed.

Lemma parse_nodiv c ctx s : prod c = true -> parse c ctx s <> Diverge.
Proof. apply parse_nodiv_mut. Qed.

(** a stream shorter than [minsz] is rejected *)
Lemma parse_short c ctx s : prod c = true -> (length s < minsz c)%nat -> exists e, parse c ctx s = Err e.
Proof.
  intros Hp Hl. destruct (parse c ctx s) as [[v r]|e|] eqn:E; [|eauto|].
  - apply parse_len in E. lia.
  - exfalso. now apply parse_nodiv in E.
Qed.

(** ** Building terminates *)
Lemma build_list_nodiv b l : (forall v, b v <> Diverge) -> build_list b l <> Diverge.
Proof.
  intros H. induction l as [|x l IH]; simpl; [discriminate|].
  apply bind_div; [apply H|]. intros a _. apply bind_div; [exact IH|]. discriminate.
Qed.

Lemma opcode_build_nodiv z : opcode_build z <> Diverge.
Proof.
  unfold opcode_build. destruct (z >? 65535); [destruct (z <? 16777216); discriminate|].
  destruct (z >? 255); [discriminate|]. destruct (0 <=? z); discriminate.
Qed.

Lemma to_bytes_nodiv v : to_bytes v <> Diverge.
Proof.
  assert (H : forall l : list val, fold_right (fun x r => let* r := r in
                           let* z := as_intr x in
                           if (0 <=? z) && (z <? 256) then Ok (z :: r) else Err EOther) (Ok []) l <> Diverge).
  { induction l as [|x l IH]; simpl; [discriminate|]. apply bind_div; [exact IH|]. intros r _.
    apply bind_div; [apply as_intr_nodiv|]. intros z _. destruct (_ && _); discriminate. }
  destruct v as [| | | | | | | | | |d| | | | | ]; simpl; try discriminate; try apply H.
  - destruct b; discriminate.
  - destruct (0 <=? z); discriminate.
  - destruct d; discriminate.
  - destruct (0 <=? z); discriminate.
Qed.

Lemma build_nodiv_mut :
  (forall c ctx v, build c ctx v <> Diverge) /\
  (forall fs ctx obj, build_fields fs ctx obj <> Diverge) /\
  (forall cs z ctx v, build_case z cs ctx v <> Diverge) /\
  (forall l ctx v, build_alts l ctx v <> Diverge).
Proof.
  Ltac fin := repeat match goal with
    | |- Ok _ <> Diverge => discriminate
    | |- Err _ <> Diverge => discriminate
    | |- (if ?b then _ else _) <> Diverge => destruct b
    | |- (match ?x with _ => _ end) <> Diverge => destruct x
    end.
  apply con_mutind; simpl.
  - intros. apply bind_div; [apply as_intr_nodiv|]. intros; fin.
  - intros. apply bind_div; [apply as_intr_nodiv|]. intros z _. destruct (z <? 0); [discriminate|].
    apply bind_div; [unfold integer2bytes; fin|]. intros; fin.
  - intros. apply bind_div; [apply as_intr_nodiv|]. intros; fin.
  - intros; fin.
  - intros; fin.
  - intros; fin.
  - intros; fin.
  - intros; fin.
  - intros. apply bind_div; [apply eval_nodiv|]. intros; fin.
  - intros; fin.
  - intros; fin.
  - intros c IH ctx v. destruct (iter v); [|discriminate]. destruct (_ <? _); [|discriminate].
    apply bind_div; [apply build_list_nodiv; auto|]. discriminate.
  - intros e c IH ctx v. apply bind_div; [apply eval_nodiv|]. intros n _.
    destruct (iter v); [|discriminate]. destruct (_ && _); [|discriminate]. apply build_list_nodiv; auto.
  - intros c IH ctx v. destruct (iter v); [|discriminate]. apply build_list_nodiv; auto.
  - intros fs IH ctx v. apply bind_div; [destruct v; discriminate|]. auto.
  - intros c IH ctx v. apply bind_div; [auto|]. intros; fin.
  - intros c IH ctx v. apply bind_div; [auto|]. intros; fin.
  - intros n c IH ctx v. apply bind_div; [auto|]. intros; fin.
  - intros a c IH ctx v. apply bind_div; [apply encode_nodiv|]. auto.
  - auto.
  - intros n c IH ctx v. destruct v; try discriminate. destruct (dget n d); auto.
  - intros k cs IH ctx v. apply bind_div; [apply dgetr_nodiv|]. intros x _. destruct (int_key x); [auto|discriminate].
  - intros k cs IH ctx v. apply bind_div; [apply dgetr_nodiv|]. intros x _. destruct (int_key x); [|discriminate].
    destruct (find_case z cs) as [[? ?]|]; [|discriminate]. destruct v; try discriminate.
    apply bind_div; [apply dgetr_nodiv|]. auto.
  - intros k c IH d ctx v. apply bind_div; [apply dgetr_nodiv|]. intros x _. destruct (truthy x); [auto|discriminate].
  - intros t ctx v. apply bind_div; [apply as_intr_nodiv|]. intros z _. apply bind_div; [apply opcode_build_nodiv|].
    intros; fin.
  - intros k kc IH t sw cs IHc ctx v. destruct v; try discriminate. apply bind_div; [apply dgetr_nodiv|].
    intros x _. destruct (int_key x); [|discriminate]. destruct (by_value t z) as [[]|]; try discriminate.
    apply bind_div; [destruct (dget (lower name) d); [discriminate|apply dgetr_nodiv]|].
    intros y _. apply bind_div; [auto|]. intros a _. apply bind_div; [auto|]. discriminate.
  - intros hdr IH t cs IHc ctx v. apply bind_div; [auto|]. intros a _. destruct v; try discriminate.
    apply bind_div; [apply dgetr_nodiv|]. intros x _. destruct (int_key x); [|discriminate].
    destruct (by_value t z) as [[]|]; try discriminate. destruct (find_case z0 cs); [|discriminate].
    apply bind_div; [auto|]. discriminate.
  - intros hdr IH t cs IHc ctx v. apply bind_div; [auto|]. intros a _. destruct v; try discriminate.
    apply bind_div; [apply dgetr_nodiv|]. intros x _. destruct (setting_id t x) as [i nm].
    apply bind_div; [|discriminate].
    destruct (int_key i); [|apply to_bytes_nodiv]. destruct (find_case z cs); [|apply to_bytes_nodiv].
    match goal with |- (match build_case ?z ?cs ?c ?v with _ => _ end) <> _ =>
      pose proof (IHc z c v); destruct (build_case z cs c v) as [|[]|] end;
      [discriminate|apply to_bytes_nodiv|discriminate|congruence].
  - intros t cs IHc ctx v. destruct v; try discriminate.
    apply bind_div; [apply dgetr_nodiv|]. intros x _.
    apply bind_div; [apply dgetr_nodiv|]. intros f _.
    apply bind_div; [apply geti_nodiv|]. intros ln _.
    apply bind_div; [apply as_intr_nodiv|]. intros pid _.
    apply bind_div; [fin|]. intros a _. destruct (setting_id t x) as [i nm].
    apply bind_div; [|discriminate].
    destruct (find_case pid cs); [|apply to_bytes_nodiv].
    match goal with |- (match build_case ?z ?cs ?c ?v with _ => _ end) <> _ =>
      pose proof (IHc z c v); destruct (build_case z cs c v) as [|[]|] end;
      [discriminate|apply to_bytes_nodiv|discriminate|congruence].
  - discriminate.
  - intros k c IH fs IHf ctx obj. apply bind_div; [apply dgetr_nodiv|]. intros x _.
    apply bind_div; [auto|]. intros a _. apply bind_div; [auto|]. discriminate.
  - intros k c IH d fs IHf ctx obj.
    apply bind_div; [auto|]. intros a _. apply bind_div; [auto|]. discriminate.
  - intros k e c IH fs IHf ctx obj. apply bind_div; [apply eval_nodiv|]. intros x _.
    apply bind_div; [auto|]. intros a _. apply bind_div; [auto|]. discriminate.
  - intros k n fs IHf ctx obj. apply bind_div; [auto|]. discriminate.
  - intros k fs IHf ctx obj. apply bind_div; [apply dgetr_nodiv|]. intros x _.
    destruct (match num_of x with Some _ => _ | None => _ end); [discriminate|auto].
  - intros n bs IHb fs IHf ctx obj. apply bind_div; [auto|]. intros bits _.
    destruct (bits2bytes bits) as [l [|]]; [|discriminate]. apply bind_div; [auto|]. discriminate.
  - discriminate.
  - intros n w c IH cs IHc z ctx v. destruct (z =? w); auto.
  - discriminate.
  - intros c IH l IHl ctx v. specialize (IH ctx v). destruct (build c ctx v); auto; discriminate.
Qed.

Lemma build_nodiv c ctx v : build c ctx v <> Diverge.
Proof. apply build_nodiv_mut. Qed.
Lemma build_fields_nodiv fs ctx obj : build_fields fs ctx obj <> Diverge.
Proof. apply build_nodiv_mut. Qed.

(** ** Fixed layouts: everything built has the same size *)
Lemma build_list_len b m l s :
  (forall v s, b v = Ok s -> length s = m) -> build_list b l = Ok s -> length s = (length l * m)%nat.
Proof.
  intros Hb. revert s; induction l as [|x l IH]; simpl; intros s H.
  - injection H as <-. reflexivity.
  - bind_inv H. bind_inv H. injection H as <-. rewrite app_length. apply Hb in E. apply IH in E0. lia.
Qed.

Lemma integer2bytes_len n z l : integer2bytes n z = Ok l -> length l = n.
Proof.
  unfold integer2bytes. destruct (Nat.leb_spec (ndigits z) (2 * n)); [|discriminate].
  intros [= <-]. rewrite app_length, to_le_length, skipn_length, to_le_length. lia.
Qed.

Lemma oadd_some a b n : oadd a b = Some n -> exists x y, a = Some x /\ b = Some y /\ n = (x + y)%nat.
Proof. destruct a, b; simpl; try discriminate. intros [= <-]. eauto. Qed.

Lemma bits2bytes_full l bs : bits2bytes l = (bs, []) -> length bs = floor8 (length l).
Proof.
  intros H. apply bits2bytes_length in H. cbn [length] in H. rewrite H, Nat.add_0_r. unfold floor8.
  now rewrite Nat.mul_comm, Nat.div_mul.
Qed.

Lemma build_len_mut :
  (forall c ctx v s n, fsz c = Some n -> build c ctx v = Ok s -> length s = n) /\
  (forall fs ctx obj s n, fszf fs = Some n -> build_fields fs ctx obj = Ok s -> length s = n) /\
  (forall cs : cases, True) /\
  (forall l ctx v s n, fsza l = Some n -> build_alts l ctx v = Ok s -> length s = n).
Proof.
  apply con_mutind; simpl; try (intros; discriminate); auto.
  - intros n sg ctx v s m [= <-] H. bind_inv H. destruct (_ && _); [|discriminate]. injection H as <-.
    apply to_le_length.
  - intros n sw ctx v s m [= <-] H. bind_inv H. destruct (q <? 0); [discriminate|]. bind_inv H.
    injection H as <-. apply integer2bytes_len in E0. destruct sw; [|rewrite rev_length]; exact E0.
  - intros n sg ctx v s m [= <-] H. bind_inv H. destruct (_ && _); [discriminate|]. injection H as <-.
    apply to_bits_length.
  - intros ctx v s m [= <-] [= <-]. reflexivity.
  - intros n ctx v s m [= <-] H. destruct v; try discriminate. destruct (Nat.eqb n width); [|discriminate].
    injection H as <-. apply to_le_length.
  - intros n ctx v s m [= <-] H. destruct v; try discriminate. destruct (Nat.eqb_spec (length l) n); [|discriminate].
    now injection H as <-.
  - intros e ctx v s m Hm H. destruct e; try discriminate. injection Hm as <-. simpl in H.
    destruct (n <? 0); [discriminate|]. destruct v; try discriminate. destruct (utf8_encode s0); [|discriminate].
    destruct (Z.leb_spec (Z.of_nat (length l)) n); [|discriminate]. injection H as <-.
    rewrite app_length, repeat_length. lia.
  - intros e c IH ctx v s m Hm H. destruct e; try discriminate. destruct (fsz c) as [k|] eqn:Ek; [|discriminate].
    injection Hm as <-. simpl in H. destruct (iter v) as [l|]; [|discriminate].
    destruct (0 <=? n); [|discriminate]. simpl in H. destruct (Z.eqb_spec (Z.of_nat (length l)) n) as [<-|]; [|discriminate].
    rewrite Nat2Z.id. eapply build_list_len; [|exact H]. intros v0 s0 H0. exact (IH _ _ _ _ eq_refl H0).
  - intros fs IH ctx v s m Hm H. bind_inv H. eauto.
  - intros c IH ctx v s m Hm H. destruct (fsz c) as [k|] eqn:Ek; [|discriminate]. injection Hm as <-.
    bind_inv H. destruct (bits2bytes q) as [bs [|]] eqn:Eb; [|discriminate]. injection H as <-.
    apply IH with (n := k) in E; [|reflexivity]. subst k. now apply bits2bytes_full.
  - intros c IH ctx v s m Hm H. destruct (fsz c) as [k|] eqn:Ek; [|discriminate]. injection Hm as <-.
    bind_inv H. injection H as <-. rewrite bytes2bits_length. apply IH with (n := k) in E; [|reflexivity]. lia.
  - intros n c IH ctx v s m Hm H. bind_inv H. injection H as <-. rewrite rev_length. eauto.
  - intros a c IH ctx v s m Hm H. bind_inv H. eauto.
  - intros n c IH ctx v s m Hm H. destruct v; try discriminate. destruct (dget n d); eauto.
  - intros ctx obj s m [= <-] [= <-]. reflexivity.
  - intros k c IH fs IHf ctx obj s m Hm H. apply oadd_some in Hm as (x & y & Hx & Hy & ->).
    bind_inv H. bind_inv H. bind_inv H. injection H as <-. rewrite app_length. erewrite IH, IHf; eauto.
  - intros k c IH d fs IHf ctx obj s m Hm H. apply oadd_some in Hm as (x & y & Hx & Hy & ->).
    bind_inv H. bind_inv H. injection H as <-. rewrite app_length. erewrite IH, IHf; eauto.
  - intros k e c IH fs IHf ctx obj s m Hm H. apply oadd_some in Hm as (x & y & Hx & Hy & ->).
    bind_inv H. bind_inv H. bind_inv H. injection H as <-. rewrite app_length. erewrite IH, IHf; eauto.
  - intros k n fs IHf ctx obj s m Hm H. destruct (fszf fs) as [y|] eqn:Hy; [|discriminate]. injection Hm as <-.
    bind_inv H. injection H as <-. rewrite app_length, repeat_length. erewrite IHf; eauto.
  - intros n bs IHb fs IHf ctx obj s m Hm H. destruct (fszf bs) as [x|] eqn:Hx; [|discriminate].
    destruct (fszf fs) as [y|] eqn:Hy; [|discriminate]. injection Hm as <-.
    bind_inv H. destruct (bits2bytes q) as [l [|]] eqn:Eb; [|discriminate]. bind_inv H. injection H as <-.
    rewrite app_length, rev_length. apply IHb with (n := x) in E; [|reflexivity]. subst x.
    apply bits2bytes_full in Eb. rewrite Eb. now rewrite (IHf _ _ _ _ eq_refl E0).
  - intros c IH l IHl ctx v s m Hm H. destruct l as [|c2 l2].
    + destruct (build c ctx v) eqn:E; try discriminate. injection H as <-. eauto.
    + destruct (fsz c) as [x|] eqn:Hx; [|discriminate].
      destruct (fsza (ACons c2 l2)) as [y|] eqn:Hy; [|discriminate].
      destruct (Nat.eqb_spec x y); [|discriminate]. injection Hm as <-. subst y.
      destruct (build c ctx v) eqn:E; try discriminate; [injection H as <-; eauto | eauto].
Qed.

Lemma build_len c ctx v s n : fsz c = Some n -> build c ctx v = Ok s -> length s = n.
Proof. apply build_len_mut. Qed.
Lemma build_fields_len fs ctx obj s n : fszf fs = Some n -> build_fields fs ctx obj = Ok s -> length s = n.
Proof. apply build_len_mut. Qed.

(** ** Sizes modulo 8 (whole bytes inside Bitwise) *)
Definition mod8 (n : nat) : nat := (n mod 8)%nat.
Definition whole (c : con) : bool :=
  match fsz c with
  | Some n => Nat.eqb (mod8 n) 0
  | None => match c with
            | CBytewise _ => true
            | CIfDefault _ c1 _ => match fsz c1 with Some n => Nat.eqb (mod8 n) 0 | None => false end
            | _ => false
            end
  end.
(** a struct whose leading fixed part and remaining parts add up to whole bytes *)
Fixpoint wholef (acc : nat) (fs : fields) : bool :=
  match fs with
  | FNil => Nat.eqb (mod8 acc) 0
  | FCons _ c fs' | FDefault _ c _ fs' | FRebuild _ _ c fs' =>
      match fsz c with Some n => wholef (acc + n) fs' | None => whole c && wholef acc fs' end
  | FPad _ n fs' => wholef (acc + n) fs'
  | FStopIf _ _ => false
  | FBits _ _ _ => false
  end.

Lemma whole_len c ctx v s : whole c = true -> build c ctx v = Ok s -> mod8 (length s) = O.
Proof.
  unfold whole. destruct (fsz c) as [n|] eqn:En; intros H B.
  - apply Nat.eqb_eq in H. now rewrite (build_len _ _ _ _ _ En B).
  - destruct c; try discriminate.
    + cbn [build] in B. bind_inv B. injection B as <-. rewrite bytes2bits_length. unfold mod8.
      now rewrite Nat.mul_comm, Nat.mod_mul.
    + destruct (fsz c) as [n|] eqn:En'; [|discriminate]. apply Nat.eqb_eq in H.
      cbn [build] in B. bind_inv B. destruct (truthy q).
      * now rewrite (build_len _ _ _ _ _ En' B).
      * now injection B as <-.
Qed.

Lemma wholef_len fs : forall acc ctx obj s, wholef acc fs = true -> build_fields fs ctx obj = Ok s ->
  mod8 (acc + length s) = O.
Proof.
  induction fs; intros acc ctx obj s; simpl; intros H B; try discriminate.
  - injection B as <-. apply Nat.eqb_eq in H. simpl. now rewrite Nat.add_0_r.
  - bind_inv B. bind_inv B. bind_inv B. injection B as <-. rewrite app_length.
    destruct (fsz c) as [n|] eqn:En.
    + apply (build_len _ _ _ _ _ En) in E0. specialize (IHfs _ _ _ _ H E1). now rewrite E0, Nat.add_assoc.
    + apply andb_prop in H as [H1 H2]. specialize (IHfs _ _ _ _ H2 E1). apply whole_len in E0; [|exact H1].
      replace (acc + (length q0 + length q1))%nat with ((acc + length q1) + length q0)%nat by lia.
      unfold mod8 in *. rewrite Nat.add_mod, IHfs, E0 by lia. reflexivity.
  - bind_inv B. bind_inv B. injection B as <-. rewrite app_length.
    destruct (fsz c) as [n|] eqn:En.
    + apply (build_len _ _ _ _ _ En) in E. specialize (IHfs _ _ _ _ H E0). now rewrite E, Nat.add_assoc.
    + apply andb_prop in H as [H1 H2]. specialize (IHfs _ _ _ _ H2 E0). apply whole_len in E; [|exact H1].
      replace (acc + (length q + length q0))%nat with ((acc + length q0) + length q)%nat by lia.
      unfold mod8 in *. rewrite Nat.add_mod, IHfs, E by lia. reflexivity.
  - bind_inv B. bind_inv B. bind_inv B. injection B as <-. rewrite app_length.
    destruct (fsz c) as [n|] eqn:En.
    + apply (build_len _ _ _ _ _ En) in E0. specialize (IHfs _ _ _ _ H E1). now rewrite E0, Nat.add_assoc.
    + apply andb_prop in H as [H1 H2]. specialize (IHfs _ _ _ _ H2 E1). apply whole_len in E0; [|exact H1].
      replace (acc + (length q0 + length q1))%nat with ((acc + length q1) + length q0)%nat by lia.
      unfold mod8 in *. rewrite Nat.add_mod, IHfs, E0 by lia. reflexivity.
  - bind_inv B. injection B as <-. rewrite app_length, repeat_length. specialize (IHfs _ _ _ _ H E). now rewrite Nat.add_assoc.
Qed.

(** what may stand directly inside Bitwise: a whole number of bytes is built *)
Definition wholeb (c : con) : bool :=
  match c with CStruct fs => wholef 0 fs | _ => whole c end.
Lemma wholeb_len c ctx v s : wholeb c = true -> build c ctx v = Ok s -> mod8 (length s) = O.
Proof.
  intros H B. destruct c; try (eapply whole_len; eauto; fail).
  simpl in H, B. bind_inv B. exact (wholef_len _ _ _ _ _ H B).
Qed.

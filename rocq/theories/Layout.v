(** * Layout: where each field of a message sits on the wire.

    A documented layout is a list of [item]s, in the style of the message tables
    of the Mesh Model specification: which octets (or which bits of a
    little-endian / big-endian group of octets) carry which field.  [layout_of]
    reads the layout off a declaration; the theorems say that what is built and
    what is parsed really is laid out like that. *)
From Verif Require Import PyVal Bits Utf8 Adapters Construct Size Master Local Deps BitLayout.

Inductive item :=
| At (k : string) (c : con) (off n : nat)        (* octets off .. off+n-1: field k, encoded as c *)
| Bit (k : string) (c : con) (be : bool) (off n sh w : nat)
      (* bits sh .. sh+w-1 of the number stored in octets off .. off+n-1 (little endian unless be): field k *)
| Rsv (be : bool) (off n sh w : nat)             (* these bits are reserved *)
| Tail (k : string) (c : con) (off : nat).       (* all octets from off on: field k *)

Definition slice (off n : nat) (s : list Z) : list Z := firstn n (skipn off s).
Definition word (be : bool) (off n : nat) (s : list Z) : Z :=
  of_le (if be then rev (slice off n s) else slice off n s).
(** bits sh .. sh+w-1 of a number *)
Definition getbits (sh w : nat) (z : Z) : Z := z / 2 ^ Z.of_nat sh mod 2 ^ Z.of_nat w.

(** the item, as found in the octets [s] built from the fields [d] *)
Definition built (d : dict) (s : list Z) (i : item) : Prop :=
  match i with
  | At k c off n => (off + n <= length s)%nat /\ exists x, dget k d = Some x /\ build c d x = Ok (slice off n s)
  | Bit k c be off n sh w => (off + n <= length s)%nat /\ exists x bs, dget k d = Some x /\ build c d x = Ok bs /\ length bs = w /\
                             of_bits bs = getbits sh w (word be off n s)
  | Rsv be off n sh w => (off + n <= length s)%nat /\ getbits sh w (word be off n s) = 0
  | Tail k c off => (off <= length s)%nat /\ exists x, dget k d = Some x /\ build c d x = Ok (skipn off s)
  end.
(** the item, as parsed from the octets [s] into the fields [u] *)
Definition parsed (u : dict) (s : list Z) (i : item) : Prop :=
  match i with
  | At k c off n => (off + n <= length s)%nat /\ exists x, dget k u = Some x /\ parse c u (slice off n s) = Ok (x, [])
  | Bit k c be off n sh w => (off + n <= length s)%nat /\ exists x, dget k u = Some x /\
                             parse c u (to_bits w (getbits sh w (word be off n s))) = Ok (x, [])
  | Rsv be off n sh w => (off + n <= length s)%nat
  | Tail k c off => exists x r, dget k u = Some x /\ parse c u (skipn off s) = Ok (x, r)
  end.
(** [s] and [s'] agree on everything but reserved bits *)
Definition same (s s' : list Z) (i : item) : Prop :=
  match i with
  | At _ _ off n => slice off n s = slice off n s'
  | Bit _ _ be off n sh w => getbits sh w (word be off n s) = getbits sh w (word be off n s')
  | Rsv _ _ _ _ _ => True
  | Tail _ _ off => skipn off s = skipn off s'
  end.

(** ** Reading the layout off a declaration *)
Fixpoint bleaf (c : con) : option nat :=
  match c with
  | CBits n false => Some n
  | CFlag => Some 1%nat
  | CAdapt _ c1 => bleaf c1
  | _ => None
  end.
Fixpoint lay_bits (be : bool) (off n : nat) (bs : fields) (top : nat) : option (list item) :=
  match bs with
  | FNil => if Nat.eqb top 0 then Some [] else None
  | FCons k c bs' =>
      match bleaf c with
      | Some w => if Nat.leb w top then option_map (cons (Bit k c be off n (top - w) w)) (lay_bits be off n bs' (top - w)) else None
      | None => None
      end
  | FPad None w bs' => if Nat.leb w top then option_map (cons (Rsv be off n (top - w) w)) (lay_bits be off n bs' (top - w)) else None
  | _ => None
  end.
(** names, in order *)
Fixpoint fnames (fs : fields) : list string :=
  match fs with
  | FNil => []
  | FCons k _ fs' | FDefault k _ _ fs' | FRebuild k _ _ fs' | FPad (Some k) _ fs' => k :: fnames fs'
  | FPad None _ fs' | FStopIf _ fs' => fnames fs'
  | FBits _ bs fs' => fnames bs ++ fnames fs'
  end.
Definition kmem (k : string) (l : list string) : bool := existsb (String.eqb k) l.
Definition disjoint (a b : list string) : bool := forallb (fun k => negb (kmem k b)) a.
Fixpoint lay (fs : fields) (off : nat) : option (list item) :=
  match fs with
  | FNil => Some []
  | FCons k c fs' | FDefault k c _ fs' | FRebuild k _ c fs' =>
      if negb (kmem k (fnames fs')) && disjoint (deps c) ("_"%string :: k :: fnames fs') && negb (String.eqb k "_") then
        match fsz c with
        | Some n => if wf false c && loc c then option_map (cons (At k c off n)) (lay fs' (off + n)) else None
        | None => match fs' with FNil => Some [Tail k c off] | _ => None end
        end
      else None
  | FPad k n fs' =>
      if match k with Some k => negb (kmem k (fnames fs')) && negb (String.eqb k "_") | None => true end
      then option_map (cons (Rsv false off n 0 (8 * n))) (lay fs' (off + n)) else None
  | FStopIf _ _ => None
  | FBits n bs fs' =>
      if disjoint (fnames bs) ("_"%string :: fnames fs') && distinct (fnames bs) then
        match lay_bits false off n bs (8 * n), lay fs' (off + n) with
        | Some a, Some b => Some (a ++ b)
        | _, _ => None
        end
      else None
  end.
Definition layout_of (c : con) : option (list item) :=
  match c with
  | CStruct fs => lay fs 0
  | CBitwise (CStruct bs) => match fszf bs with Some m => if distinct (fnames bs) then lay_bits true 0 (m / 8) bs m else None | None => None end
  | CReversed n (CBitwise (CStruct bs)) => if distinct (fnames bs) then lay_bits false 0 n bs (8 * n) else None
  | _ => None
  end.

(** the message fields actually sent: defaults filled in, counts computed *)
Fixpoint fill (fs : fields) (d : dict) : dict :=
  match fs with
  | FNil => d
  | FCons _ _ fs' | FStopIf _ fs' | FPad None _ fs' | FBits _ _ fs' => fill fs' d
  | FPad (Some k) _ fs' => fill fs' (dset k (dgetn k d) d)
  | FDefault k _ dv fs' => fill fs' (dset k (match dgetn k d with VNone => dv | y => y end) d)
  | FRebuild k e _ fs' => match eval e d with Ok n => fill fs' (dset k (VInt n) d) | _ => d end
  end.
Definition filled (c : con) (d : dict) : dict := match c with CStruct fs => fill fs d | _ => d end.

(** ** Lists and bits *)
Lemma kmem_in k l : kmem k l = false <-> ~ In k l.
Proof.
  unfold kmem. split.
  - apply existsb_string.
  - intros H. destruct (existsb _ l) eqn:E; [|reflexivity]. apply existsb_exists in E as (x & Hx & Ex). apply String.eqb_eq in Ex. now subst.
Qed.
Lemma disjoint_in a b : disjoint a b = true -> forall k, In k a -> ~ In k b.
Proof. intros H k Hk. apply kmem_in. unfold disjoint in H. rewrite forallb_forall in H. apply negb_true_iff, H, Hk. Qed.

Lemma slice_app p t off n : length p = off -> slice off n (p ++ t) = firstn n t.
Proof. intros <-. unfold slice. now rewrite skipn_app, skipn_all, Nat.sub_diag. Qed.
Lemma skipn_app_len {A} (p t : list A) off : length p = off -> skipn off (p ++ t) = t.
Proof. intros <-. now rewrite skipn_app, skipn_all, Nat.sub_diag. Qed.
Lemma firstn_app_len {A} (p t : list A) n : length p = n -> firstn n (p ++ t) = p.
Proof. intros <-. now rewrite firstn_app, firstn_all, Nat.sub_diag, app_nil_r. Qed.

Lemma getbits_to_bits top w W : (w <= top)%nat ->
  to_bits top W = to_bits w (getbits (top - w) w W) ++ to_bits (top - w) W.
Proof.
  intros H. replace top with (w + (top - w))%nat at 1 by lia. rewrite to_bits_split. f_equal.
  unfold getbits, to_bits. now rewrite to_lsb_mod.
Qed.
Lemma of_to_getbits w sh W : of_bits (to_bits w (getbits sh w W)) = getbits sh w W.
Proof. rewrite of_to_bits. unfold getbits. apply Z.mod_mod. apply Z.pow_nonzero; lia. Qed.

(** ** Bit-level leaves *)
Lemma bleaf_build c : forall w ctx v b, bleaf c = Some w -> build c ctx v = Ok b -> length b = w /\ bits b.
Proof.
  induction c; cbn [bleaf]; intros w ctx v b Hw H; try discriminate Hw.
  - destruct sg; [discriminate|]. injection Hw as <-. cbn [build] in H. bind_inv H. destruct (_ && _); [discriminate|].
    injection H as <-. split; [apply to_bits_length|apply to_bits_bits].
  - injection Hw as <-. cbn [build] in H. injection H as <-. split; [reflexivity|].
    constructor; [|constructor]. destruct (truthy v); [now right|now left].
  - cbn [build] in H. bind_inv H. eauto.
Qed.
Lemma bleaf_parse c : forall w, bleaf c = Some w -> forall ctx s v r, parse c ctx s = Ok (v, r) ->
  exists a, s = a ++ r /\ length a = w /\ forall ctx' r', parse c ctx' (a ++ r') = Ok (v, r').
Proof.
  induction c; cbn [bleaf]; intros w Hw ctx s v r H; try discriminate Hw.
  - destruct sg; [discriminate|]. injection Hw as <-. cbn [parse] in H. bind_inv H. injection H as <- <-.
    apply take_ok in E as [-> E]. exists l. repeat split; [exact E|]. intros. cbn [parse]. now rewrite take_app'.
  - injection Hw as <-. cbn [parse] in H. destruct s as [|b s]; [discriminate|]. injection H as <- <-. exists [b]. repeat split.
  - cbn [parse] in H. bind_inv H. bind_inv H. injection H as <- <-. destruct (IHc w Hw _ _ _ _ E) as (b & -> & Hb & P).
    exists b. repeat split; [exact Hb|]. intros. cbn [parse]. rewrite P. cbn [bind]. now rewrite E0.
Qed.

Lemma bits_units be off n bs : forall top items ctx obj a, lay_bits be off n bs top = Some items -> build_fields bs ctx obj = Ok a ->
  bits a /\ length a = top.
Proof.
  induction bs as [|k c bs IH| | |k w bs IH| |] using fields_ind; cbn [lay_bits]; intros top items ctx obj a Hl Hb; try discriminate Hl.
  - destruct (Nat.eqb_spec top 0); [|discriminate]. cbn in Hb. injection Hb as <-. split; [constructor|auto].
  - destruct (bleaf c) as [w|] eqn:Ew; [|discriminate]. destruct (Nat.leb_spec w top) as [Hw|]; [|discriminate].
    destruct (lay_bits be off n bs (top - w)) as [its|] eqn:El; [|discriminate]. 
    cbn [build_fields] in Hb. apply bind_ok in Hb as (x & Ex & Hb).
    apply bind_ok in Hb as (a1 & E1 & Hb). apply bind_ok in Hb as (a2 & E2 & Hb). injection Hb as <-.
    destruct (bleaf_build _ _ _ _ _ Ew E1) as [L1 B1]. destruct (IH _ _ _ _ _ El E2) as [B2 L2].
    split; [apply Forall_app; auto|]. rewrite app_length. lia.
  - destruct k; [discriminate|]. destruct (Nat.leb_spec w top) as [Hw|]; [|discriminate].
    destruct (lay_bits be off n bs (top - w)) as [its|] eqn:El; [|discriminate].
    cbn [build_fields] in Hb. apply bind_ok in Hb as (a2 & E2 & Hb). injection Hb as <-. destruct (IH _ _ _ _ _ El E2) as [B2 L2].
    split; [apply Forall_app; split; [|exact B2]|]. apply Forall_forall. intros b Hbb. apply repeat_spec in Hbb. subst. now left.
    rewrite app_length, repeat_length. lia.
Qed.

(** ** Building bits *)
Section BITS.
Variables (be : bool) (off n : nat) (s : list Z).
Let W := word be off n s.
Hypothesis Hlen : (off + n <= length s)%nat.

Lemma bits_built bs : forall top items ctx obj a,
  lay_bits be off n bs top = Some items -> (forall k, In k (fnames bs) -> dget k ctx = dget k obj) ->
  build_fields bs ctx obj = Ok a -> a = to_bits top W ->
  forall e, (forall k, In k (fnames bs) -> dget k e = dget k obj) -> (forall c x, bleaf c <> None -> build c e x = build c ctx x) ->
  Forall (built e s) items.
Proof.
  induction bs as [|k c bs IH| | |k w bs IH| |] using fields_ind; cbn [lay_bits]; intros top items ctx obj a Hl Hc Hb Ha ee He Hx; try discriminate Hl.
  - destruct (Nat.eqb top 0); [|discriminate]. injection Hl as <-. constructor.
  - destruct (bleaf c) as [w|] eqn:Ew; [|discriminate]. destruct (Nat.leb_spec w top) as [Hw|]; [|discriminate].
    destruct (lay_bits be off n bs (top - w)) as [its|] eqn:El; [|discriminate]. injection Hl as <-.
    cbn [build_fields] in Hb. apply bind_ok in Hb as (x & Ex & Hb). unfold dgetr in Ex. destruct (dget k obj) as [x0|] eqn:Ek; [|discriminate]. injection Ex as ->.
    apply bind_ok in Hb as (a1 & E1 & Hb). apply bind_ok in Hb as (a2 & E2 & Hb). injection Hb as <-.
    destruct (bleaf_build _ _ _ _ _ Ew E1) as [L1 B1].
    rewrite (getbits_to_bits top w W Hw) in Ha. apply app_len_inj in Ha as [Ha1 Ha2]; [|rewrite to_bits_length; exact L1].
    assert (Hctx : dget k ctx = Some x) by (rewrite Hc, Ek by (now left); reflexivity).
    rewrite dset_same in E2 by exact Hctx.
    constructor.
    + cbn [built]. split; [exact Hlen|]. exists x, a1. split; [rewrite He, Ek by (now left); reflexivity|]. split; [rewrite Hx by congruence; exact E1|]. split; [exact L1|].
      rewrite Ha1. apply of_to_getbits.
    + eapply IH; [exact El| |exact E2|exact Ha2| |exact Hx].
      * intros k' Hk'. apply Hc. now right.
      * intros k' Hk'. apply He. now right.
  - destruct k; [discriminate|]. destruct (Nat.leb_spec w top) as [Hw|]; [|discriminate].
    destruct (lay_bits be off n bs (top - w)) as [its|] eqn:El; [|discriminate]. injection Hl as <-.
    cbn [build_fields] in Hb. apply bind_ok in Hb as (a2 & E2 & Hb). injection Hb as <-.
    rewrite (getbits_to_bits top w W Hw) in Ha. apply app_len_inj in Ha as [Ha1 Ha2]; [|rewrite to_bits_length, repeat_length; reflexivity].
    constructor.
    + cbn [built]. split; [exact Hlen|]. fold W. rewrite <- of_to_getbits, <- Ha1, <- to_bits_zero, of_to_bits. apply Z.mod_0_l, Z.pow_nonzero; lia.
    + eapply IH; [exact El|exact Hc|exact E2|exact Ha2|exact He|exact Hx].
Qed.

(** ** Parsing bits *)
Lemma bits_parsed bs : forall top items obj bd r rest,
  lay_bits be off n bs top = Some items -> distinct (fnames bs) = true ->
  parse_fields bs obj (to_bits top W ++ rest) = Ok (bd, r) ->
  (forall k, ~ In k (fnames bs) -> dget k bd = dget k obj) /\ r = rest /\
  (forall k, In k (fnames bs) -> exists x, dget k bd = Some x) /\
  forall u, (forall k, In k (fnames bs) -> dget k u = dget k bd) -> Forall (parsed u s) items.
Proof.
  induction bs as [|k c bs IH| | |k w bs IH| |] using fields_ind; cbn [lay_bits]; intros top items obj bd r rest Hl Hd Hp; try discriminate Hl.
  - destruct (Nat.eqb_spec top 0) as [->|]; [|discriminate]. injection Hl as <-. cbn in Hp. injection Hp as <- <-. split; [reflexivity|]. split; [reflexivity|]. split; [intros k []|constructor].
  - destruct (bleaf c) as [w|] eqn:Ew; [|discriminate]. destruct (Nat.leb_spec w top) as [Hw|]; [|discriminate].
    destruct (lay_bits be off n bs (top - w)) as [its|] eqn:El; [|discriminate]. injection Hl as <-.
    cbn [fnames distinct] in Hd. apply andb_prop in Hd as [Hk Hd]. apply negb_true_iff in Hk. fold (kmem k (fnames bs)) in Hk. apply kmem_in in Hk.
    cbn [parse_fields] in Hp. apply bind_ok in Hp as ([x r0] & E1 & Hp).
    destruct (bleaf_parse _ _ Ew _ _ _ _ E1) as (a & Ea & La & Pa).
    rewrite (getbits_to_bits top w W Hw), <- app_assoc in Ea. apply app_len_inj in Ea as [Ea1 Ea2]; [|rewrite to_bits_length; lia]. subst a r0.
    destruct (IH _ _ _ _ _ _ El Hd Hp) as (I1 & I2 & I4 & I3).
    split; [|split; [exact I2|split]].
    + intros k' Hk'. rewrite I1 by (intros H; apply Hk'; now right). apply dget_dset_neq. intros ->. apply Hk'. now left.
    + intros k' [<-|Hk']; [|auto]. exists x. rewrite I1 by exact Hk. apply dget_dset_eq.
    + intros u Hu. constructor.
      * cbn [parsed]. split; [exact Hlen|]. exists x. split.
        -- rewrite Hu by (now left). rewrite I1 by exact Hk. apply dget_dset_eq.
        -- fold W. rewrite <- (app_nil_r (to_bits w _)). apply Pa.
      * apply I3. intros k' Hk'. apply Hu. now right.
  - destruct k; [discriminate|]. destruct (Nat.leb_spec w top) as [Hw|]; [|discriminate].
    destruct (lay_bits be off n bs (top - w)) as [its|] eqn:El; [|discriminate]. injection Hl as <-.
    cbn [parse_fields] in Hp. apply bind_ok in Hp as ([x r0] & E1 & Hp). apply take_ok in E1 as [Ea La].
    rewrite (getbits_to_bits top w W Hw), <- app_assoc in Ea. apply app_len_inj in Ea as [Ea1 Ea2]; [|rewrite to_bits_length; lia]. subst x r0.
    destruct (IH _ _ _ _ _ _ El Hd Hp) as (I1 & I2 & I4 & I3).
    split; [exact I1|split; [exact I2|split; [exact I4|]]]. intros u Hu. constructor; [exact Hlen|]. apply I3. exact Hu.
Qed.
End BITS.

(** the same bits, apart from reserved ones, parse alike *)
Lemma bits_same be off n s s' bs : forall top items obj bd r rest rest',
  lay_bits be off n bs top = Some items -> Forall (same s s') items ->
  parse_fields bs obj (to_bits top (word be off n s) ++ rest) = Ok (bd, r) ->
  parse_fields bs obj (to_bits top (word be off n s') ++ rest') = Ok (bd, rest') /\ r = rest.
Proof.
  induction bs as [|k c bs IH| | |k w bs IH| |] using fields_ind; cbn [lay_bits]; intros top items obj bd r rest rest' Hl Hs Hp; try discriminate Hl.
  - destruct (Nat.eqb_spec top 0) as [->|]; [|discriminate]. cbn in *. injection Hp as <- <-. split; reflexivity.
  - destruct (bleaf c) as [w|] eqn:Ew; [|discriminate]. destruct (Nat.leb_spec w top) as [Hw|]; [|discriminate].
    destruct (lay_bits be off n bs (top - w)) as [its|] eqn:El; [|discriminate]. injection Hl as <-.
    inversion Hs as [|? ? H1 H2]; subst. cbn [same] in H1.
    cbn [parse_fields] in Hp. apply bind_ok in Hp as ([x r0] & E1 & Hp).
    destruct (bleaf_parse _ _ Ew _ _ _ _ E1) as (a & Ea & La & Pa).
    rewrite (getbits_to_bits top w _ Hw), <- app_assoc in Ea. apply app_len_inj in Ea as [Ea1 Ea2]; [|rewrite to_bits_length; lia]. subst a r0.
    cbn [parse_fields]. rewrite (getbits_to_bits top w _ Hw), <- H1, <- app_assoc, Pa. cbn [bind]. eapply IH; eauto.
  - destruct k; [discriminate|]. destruct (Nat.leb_spec w top) as [Hw|]; [|discriminate].
    destruct (lay_bits be off n bs (top - w)) as [its|] eqn:El; [|discriminate]. injection Hl as <-.
    inversion Hs as [|? ? H1 H2]; subst.
    cbn [parse_fields] in Hp. apply bind_ok in Hp as ([x r0] & E1 & Hp). apply take_ok in E1 as [Ea La].
    rewrite (getbits_to_bits top w _ Hw), <- app_assoc in Ea. apply app_len_inj in Ea as [Ea1 Ea2]; [|rewrite to_bits_length; lia]. subst x r0.
    cbn [parse_fields]. rewrite (getbits_to_bits top w _ Hw), <- app_assoc, take_app' by apply to_bits_length. cbn [bind]. eapply IH; eauto.
Qed.

(** ** Building octets *)
Lemma fill_other fs : forall d k, ~ In k (fnames fs) -> dget k (fill fs d) = dget k d.
Proof.
  induction fs as [|k c fs IH|k c dv fs IH|k e c fs IH|k n fs IH|k fs IH|n bs _ fs IH] using fields_ind; cbn [fill fnames]; intros d k' Hk.
  - reflexivity.
  - apply IH. intros H; apply Hk; now right.
  - rewrite IH by (intros H; apply Hk; now right). apply dget_dset_neq. intros ->. apply Hk. now left.
  - destruct (eval e d); [|reflexivity..]. rewrite IH by (intros H; apply Hk; now right). apply dget_dset_neq. intros ->. apply Hk. now left.
  - destruct k as [k|]; [|now apply IH]. rewrite IH by (intros H; apply Hk; now right). apply dget_dset_neq. intros ->. apply Hk. now left.
  - now apply IH.
  - apply IH. intros H; apply Hk. apply in_or_app. now right.
Qed.

(** [At] / [Tail] for one field, once its value and position are known *)
Lemma at_built k c off n x p a b e ctx :
  length p = off -> length a = n -> build c ctx x = Ok a -> dget k e = Some x -> agree (deps c) ctx e ->
  built e (p ++ a ++ b) (At k c off n).
Proof.
  intros Hp Ha Hb Hk Hd. cbn [built]. split; [rewrite !app_length; lia|].
  exists x. split; [exact Hk|]. rewrite slice_app, firstn_app_len by assumption. rewrite <- (build_agree _ _ _ _ Hd). exact Hb.
Qed.
Lemma tail_built k c off x p a e ctx :
  length p = off -> build c ctx x = Ok a -> dget k e = Some x -> agree (deps c) ctx e ->
  built e (p ++ a) (Tail k c off).
Proof.
  intros Hp Hb Hk Hd. cbn [built]. split; [rewrite app_length; lia|].
  exists x. split; [exact Hk|]. rewrite skipn_app_len by assumption. rewrite <- (build_agree _ _ _ _ Hd). exact Hb.
Qed.
Lemma bleaf_deps c : forall w, bleaf c = Some w -> deps c = [].
Proof. induction c; cbn [bleaf deps]; intros w H; try discriminate H; try reflexivity. eauto. Qed.

Ltac layhyps H := repeat (let h := fresh "G" in apply andb_prop in H as [H h]);
  repeat match goal with
  | h : negb (kmem _ _) = true |- _ => apply negb_true_iff, kmem_in in h
  | h : negb (String.eqb _ _) = true |- _ => apply negb_true_iff, String.eqb_neq in h
  end.

Lemma fields_built fs : forall off items ctx obj p t s,
  lay fs off = Some items -> (forall k, In k (fnames fs) -> dget k ctx = dget k obj) ->
  build_fields fs ctx obj = Ok t -> length p = off -> s = p ++ t ->
  Forall (built (fill fs ctx) s) items.
Proof.
  assert (COMMON : forall k c fs' off items x ctx p a b,
    lay (FCons k c fs') off = Some items -> build c ctx x = Ok a -> 
    dget k (fill fs' (dset k x ctx)) = Some x -> agree (deps c) ctx (fill fs' (dset k x ctx)) -> length p = off ->
    (forall its, lay fs' (off + length a) = Some its -> Forall (built (fill fs' (dset k x ctx)) (p ++ a ++ b)) its) -> (fs' = FNil -> b = []) ->
    Forall (built (fill fs' (dset k x ctx)) (p ++ a ++ b)) items).
  { intros k c fs' off items x ctx p a b Hl Hb Hk Hd Hp IH Hn. cbn [lay] in Hl. destruct (_ && _) eqn:Hc in Hl; [|discriminate].
    destruct (fsz c) as [n|] eqn:En.
    - destruct (_ && _) in Hl; [|discriminate]. destruct (lay fs' (off + n)) as [its|] eqn:El; [|discriminate]. injection Hl as <-.
      pose proof (build_len _ _ _ _ _ En Hb) as La. subst n. constructor; [|auto].
      eapply at_built; eauto.
    - destruct fs'; try discriminate. injection Hl as <-. rewrite (Hn eq_refl), app_nil_r. constructor; [|constructor].
      eapply tail_built; eauto. }
  induction fs as [|k c fs IH|k c dv fs IH|k e c fs IH|k n fs IH|k fs IH|n bs _ fs IH] using fields_ind;
    intros off items ctx obj p t s Hl Hc Hb Hp ->.
  - cbn [lay] in Hl. injection Hl as <-. constructor.
  - pose proof Hl as Hl'. cbn [lay] in Hl'. destruct (_ && _) eqn:G0 in Hl'; [|discriminate]. clear Hl'. layhyps G0.
    cbn [build_fields] in Hb. apply bind_ok in Hb as (x & Ex & Hb). unfold dgetr in Ex. destruct (dget k obj) as [x0|] eqn:Ek; [|discriminate]. injection Ex as ->.
    apply bind_ok in Hb as (a & Ea & Hb). apply bind_ok in Hb as (b & Eb & Hb). injection Hb as <-.
    assert (Hx : dset k x ctx = ctx) by (apply dset_same; rewrite Hc, Ek by (now left); reflexivity).
    change (fill (FCons k c fs) ctx) with (fill fs ctx). rewrite <- Hx at 1. apply (COMMON k c fs off items x ctx p a b Hl Ea).
    + rewrite fill_other by assumption. apply dget_dset_eq.
    + intros k' Hk'. pose proof (disjoint_in _ _ G1 k' Hk') as Hn'. rewrite fill_other.
      * rewrite dget_dset_neq; [reflexivity|]. intros ->. apply Hn'. right. now left.
      * intros H. apply Hn'. right. now right.
    + exact Hp.
    + intros its Hits. rewrite app_assoc. eapply (IH _ its _ _ (p ++ a) b); [exact Hits| |exact Eb|rewrite app_length; lia|reflexivity].
      intros k' Hk'. rewrite Hx. apply Hc. now right.
    + intros ->. cbn [build_fields] in Eb. now injection Eb.
  - pose proof Hl as Hl'. cbn [lay] in Hl'. destruct (_ && _) eqn:G0 in Hl'; [|discriminate]. clear Hl'. layhyps G0.
    cbn [build_fields] in Hb. cbv zeta in Hb. apply bind_ok in Hb as (a & Ea & Hb). apply bind_ok in Hb as (b & Eb & Hb). injection Hb as <-.
    assert (Hx : dgetn k ctx = dgetn k obj) by (unfold dgetn; rewrite Hc by (now left); reflexivity).
    cbn [fill]. rewrite Hx. set (x := match dgetn k obj with VNone => dv | y => y end) in *.
    apply (COMMON k c fs off items x ctx p a b Hl Ea).
    + rewrite fill_other by assumption. apply dget_dset_eq.
    + intros k' Hk'. pose proof (disjoint_in _ _ G1 k' Hk') as Hn'. rewrite fill_other.
      * rewrite dget_dset_neq; [reflexivity|]. intros ->. apply Hn'. right. now left.
      * intros H. apply Hn'. right. now right.
    + exact Hp.
    + intros its Hits. rewrite app_assoc. eapply (IH _ its _ _ (p ++ a) b); [exact Hits| |exact Eb|rewrite app_length; lia|reflexivity].
      intros k' Hk'. rewrite dget_dset_neq by (intros ->; contradiction). apply Hc. now right.
    + intros ->. cbn [build_fields] in Eb. now injection Eb.
  - pose proof Hl as Hl'. cbn [lay] in Hl'. destruct (_ && _) eqn:G0 in Hl'; [|discriminate]. clear Hl'. layhyps G0.
    cbn [build_fields] in Hb. apply bind_ok in Hb as (m & Em & Hb). apply bind_ok in Hb as (a & Ea & Hb). apply bind_ok in Hb as (b & Eb & Hb). injection Hb as <-.
    cbn [fill]. rewrite Em.
    apply (COMMON k c fs off items (VInt m) ctx p a b Hl Ea).
    + rewrite fill_other by assumption. apply dget_dset_eq.
    + intros k' Hk'. pose proof (disjoint_in _ _ G1 k' Hk') as Hn'. rewrite fill_other.
      * rewrite dget_dset_neq; [reflexivity|]. intros ->. apply Hn'. right. now left.
      * intros H. apply Hn'. right. now right.
    + exact Hp.
    + intros its Hits. rewrite app_assoc. eapply (IH _ its _ _ (p ++ a) b); [exact Hits| |exact Eb|rewrite app_length; lia|reflexivity].
      intros k' Hk'. rewrite dget_dset_neq by (intros ->; contradiction). apply Hc. now right.
    + intros ->. cbn [build_fields] in Eb. now injection Eb.
  - cbn [lay] in Hl. destruct (match k with Some _ => _ | None => _ end) eqn:G0 in Hl; [|discriminate].
    destruct (lay fs (off + n)) as [its|] eqn:El; [|discriminate]. injection Hl as <-.
    cbn [build_fields] in Hb. apply bind_ok in Hb as (b & Eb & Hb). injection Hb as <-.
    constructor.
    + cbn [built]. split; [rewrite !app_length, repeat_length; lia|]. unfold word. rewrite slice_app, firstn_app_len by (assumption || apply repeat_length).
      assert (of_le (repeat 0 n) = 0) as -> by (clear; induction n as [|n IHn]; [reflexivity|]; cbn [repeat of_le]; lia).
      unfold getbits. change (Z.of_nat 0) with 0. rewrite Z.pow_0_r, Z.div_1_r. apply Z.mod_0_l, Z.pow_nonzero; lia.
    + rewrite app_assoc. destruct k as [k|].
      * layhyps G0. cbn [fill]. assert (Hx : dgetn k ctx = dgetn k obj) by (unfold dgetn; rewrite Hc by (now left); reflexivity).
        rewrite Hx. eapply (IH _ its _ _ (p ++ repeat 0 n) b); [exact El| |exact Eb|rewrite app_length, repeat_length; lia|reflexivity].
        intros k' Hk'. rewrite dget_dset_neq by (intros ->; contradiction). apply Hc. now right.
      * eapply (IH _ its _ _ (p ++ repeat 0 n) b); [exact El|exact Hc|exact Eb|rewrite app_length, repeat_length; lia|reflexivity].
  - discriminate Hl.
  - cbn [lay] in Hl. destruct (_ && _) eqn:G0 in Hl; [|discriminate]. apply andb_prop in G0 as [G0 G1].
    destruct (lay_bits false off n bs (8 * n)) as [ib|] eqn:Ei; [|discriminate].
    destruct (lay fs (off + n)) as [its|] eqn:El; [|discriminate]. injection Hl as <-.
    cbn [build_fields] in Hb. apply bind_ok in Hb as (bl & Ebl & Hb). destruct (bits2bytes bl) as [l lo] eqn:E2. destruct lo; [|discriminate].
    apply bind_ok in Hb as (b & Eb & Hb). injection Hb as <-.
    destruct (bits_units false off n bs _ _ _ _ _ Ei Ebl) as [Bb Lb].
    destruct (bits2bytes_spec _ Bb _ _ E2) as (Hbl & Bl & _). rewrite app_nil_r in Hbl.
    assert (Ll : length (rev l) = n) by (rewrite rev_length; apply (f_equal (@length _)) in Hbl; rewrite bytes2bits_length in Hbl; lia).
    cbn [fill]. apply Forall_app. split.
    + eapply (bits_built false off n); [|exact Ei|intros; reflexivity|exact Ebl| | |].
      * rewrite !app_length. lia.
      * unfold word. rewrite slice_app, firstn_app_len by assumption. rewrite Hbl. rewrite <- (rev_involutive l) at 1.
        rewrite (le_of n (rev l)) at 1; [apply bytes2bits_le|apply Forall_rev, Bl|exact Ll].
      * intros k' Hk'. apply fill_other. intros H. apply (disjoint_in _ _ G0 k' Hk'). now right.
      * intros c x Hc'. destruct (bleaf c) as [w|] eqn:Ew; [|congruence]. apply build_agree. rewrite (bleaf_deps _ _ Ew). apply agree_nil.
    + rewrite app_assoc. eapply (IH _ its _ _ (p ++ rev l) b); [exact El| |exact Eb|rewrite app_length; lia|reflexivity].
      intros k' Hk'. apply Hc. cbn [fnames]. apply in_or_app. now right.
Qed.

(** ** Parsing octets *)
Lemma copy_named_other bs : forall bd obj k, ~ In k (fnames bs) -> dget k (copy_named bs bd obj) = dget k obj.
Proof.
  assert (SET : forall k k' bd obj, k <> k' -> dget k (match dget k' bd with Some v => dset k' v obj | None => obj end) = dget k obj).
  { intros k k' bd obj H. destruct (dget k' bd); [|reflexivity]. now apply dget_dset_neq. }
  induction bs as [|k c fs IH|k c dv fs IH|k e c fs IH|k n fs IH|k fs IH|n bs _ fs IH] using fields_ind; cbn [copy_named fnames]; intros bd obj k' Hk;
    try (rewrite IH by (intros H; apply Hk; now right); apply SET; intros ->; apply Hk; now left).
  - reflexivity.
  - destruct k as [k|]; [|now apply IH]. rewrite IH by (intros H; apply Hk; now right). apply SET. intros ->. apply Hk. now left.
  - now apply IH.
  - apply IH. intros H. apply Hk, in_or_app. now right.
Qed.
Lemma lay_bits_named be off n bs : forall top items, lay_bits be off n bs top = Some items -> distinct (fnames bs) = true ->
  forall bd obj k x, In k (fnames bs) -> dget k bd = Some x -> dget k (copy_named bs bd obj) = Some x.
Proof.
  induction bs as [|k c bs IH| | |k w bs IH| |] using fields_ind; cbn [lay_bits]; intros top items Hl Hd bd obj k' x Hk Hx; try discriminate Hl.
  - destruct Hk.
  - destruct (bleaf c); [|discriminate]. destruct (Nat.leb _ _); [|discriminate]. destruct (lay_bits be off n bs _) eqn:El; [|discriminate].
    cbn [fnames distinct] in Hd. apply andb_prop in Hd as [Hk' Hd]. apply negb_true_iff in Hk'. fold (kmem k (fnames bs)) in Hk'. apply kmem_in in Hk'.
    cbn [copy_named]. destruct Hk as [<-|Hk].
    + rewrite copy_named_other by exact Hk'. rewrite Hx. apply dget_dset_eq.
    + eapply IH; eauto.
  - destruct k; [discriminate|]. destruct (Nat.leb _ _); [|discriminate]. destruct (lay_bits be off n bs _) eqn:El; [|discriminate].
    cbn [copy_named]. eapply IH; eauto.
Qed.

Lemma fields_parsed fs : forall off items obj p t s u r,
  lay fs off = Some items -> bytes t -> parse_fields fs obj t = Ok (u, r) -> length p = off -> s = p ++ t ->
  (forall k, k <> "_"%string -> ~ In k (fnames fs) -> dget k u = dget k obj) /\ Forall (parsed u s) items.
Proof.
  assert (COMMON : forall k c fs' off items p t obj u r,
    lay (FCons k c fs') off = Some items -> bytes t -> length p = off ->
    (let* q := parse c obj t in let (v, r) := (q : val * list Z) in parse_fields fs' (dset k v obj) r) = Ok (u, r) ->
    (forall off its obj p t s u r, lay fs' off = Some its -> bytes t -> parse_fields fs' obj t = Ok (u, r) -> length p = off -> s = p ++ t ->
      (forall k, k <> "_"%string -> ~ In k (fnames fs') -> dget k u = dget k obj) /\ Forall (parsed u s) its) ->
    (forall k', k' <> "_"%string -> ~ In k' (k :: fnames fs') -> dget k' u = dget k' obj) /\ Forall (parsed u (p ++ t)) items).
  { intros k c fs' off items p t obj u r Hl Bt Hp H IH. cbn [lay] in Hl. destruct (_ && _) eqn:G0 in Hl; [|discriminate]. layhyps G0.
    apply bind_ok in H as ([x r0] & E & H).
    destruct (fsz c) as [n|] eqn:En.
    - destruct (_ && _) eqn:G2 in Hl; [|discriminate]. apply andb_prop in G2 as [W L]. destruct (lay fs' (off + n)) as [its|] eqn:El; [|discriminate]. injection Hl as <-.
      pose proof (parse_fixed _ _ _ _ _ _ En E) as Ln.
      destruct (parse_local _ _ _ _ _ W L Bt E) as (a & -> & Pa). apply Forall_app in Bt as [Ba Br].
      assert (La : length a = n) by (rewrite app_length in Ln; lia).
      destruct (IH (off + n)%nat its _ (p ++ a) r0 (p ++ a ++ r0) u r El Br H) as [I1 I2]; [rewrite app_length; lia|now rewrite app_assoc|].
      split.
      + intros k' H1 H2. rewrite I1; [|exact H1|intros X; apply H2; now right]. apply dget_dset_neq. intros ->. apply H2. now left.
      + constructor; [|exact I2]. cbn [parsed]. split; [rewrite !app_length; lia|]. exists x. split.
        * rewrite I1 by assumption. apply dget_dset_eq.
        * rewrite slice_app, firstn_app_len by assumption. rewrite <- (parse_agree c obj u).
          -- rewrite <- (app_nil_r a) at 1. apply Pa. constructor.
          -- intros k' Hk'. pose proof (disjoint_in _ _ G1 k' Hk') as Hn'. rewrite I1.
             ++ rewrite dget_dset_neq; [reflexivity|]. intros ->. apply Hn'. right. now left.
             ++ intros ->. apply Hn'. now left.
             ++ intros X. apply Hn'. right. now right.
    - destruct fs'; try discriminate. injection Hl as <-. cbn [parse_fields] in H. injection H as <- <-. split.
      + intros k' H1 H2. apply dget_dset_neq. intros ->. apply H2. now left.
      + constructor; [|constructor]. cbn [parsed]. exists x, r0. split; [apply dget_dset_eq|]. rewrite skipn_app_len by assumption.
        rewrite <- (parse_agree c obj _); [exact E|]. intros k' Hk'. pose proof (disjoint_in _ _ G1 k' Hk') as Hn'.
        rewrite dget_dset_neq; [reflexivity|]. intros ->. apply Hn'. right. now left. }
  induction fs as [|k c fs IH|k c dv fs IH|k e c fs IH|k n fs IH|k fs IH|n bs _ fs IH] using fields_ind;
    intros off items obj p t s u r Hl Bt H Hp ->.
  - cbn [lay] in Hl. injection Hl as <-. cbn in H. injection H as <- <-. split; [reflexivity|constructor].
  - eapply COMMON; eauto.
  - eapply COMMON; eauto.
  - eapply COMMON; eauto.
  - cbn [lay] in Hl. destruct (match k with Some _ => _ | None => _ end) eqn:G0 in Hl; [|discriminate].
    destruct (lay fs (off + n)) as [its|] eqn:El; [|discriminate]. injection Hl as <-.
    cbn [parse_fields] in H. apply bind_ok in H as ([x r0] & E & H). apply take_ok in E as [-> E]. apply Forall_app in Bt as [Ba Br].
    destruct (IH (off + n)%nat its _ (p ++ x) r0 (p ++ x ++ r0) u r El Br H) as [I1 I2]; [rewrite app_length; lia|now rewrite app_assoc|].
    split.
    + intros k' H1 H2. destruct k as [k|].
      * rewrite I1; [|exact H1|intros X; apply H2; now right]. apply dget_dset_neq. intros ->. apply H2. now left.
      * now apply I1.
    + constructor; [cbn [parsed]; rewrite !app_length; lia|exact I2].
  - discriminate Hl.
  - cbn [lay] in Hl. destruct (_ && _) eqn:G0 in Hl; [|discriminate]. apply andb_prop in G0 as [G0 G1].
    destruct (lay_bits false off n bs (8 * n)) as [ib|] eqn:Ei; [|discriminate].
    destruct (lay fs (off + n)) as [its|] eqn:El; [|discriminate]. injection Hl as <-.
    cbn [parse_fields] in H. apply bind_ok in H as ([a r0] & E & H). apply bind_ok in H as ([bd r1] & Eb & H). destruct r1; [|discriminate].
    apply take_ok in E as [-> E]. apply Forall_app in Bt as [Ba Br].
    destruct (IH (off + n)%nat its _ (p ++ a) r0 (p ++ a ++ r0) u r El Br H) as [I1 I2]; [rewrite app_length; lia|now rewrite app_assoc|].
    assert (Hw : bytes2bits (rev a) = to_bits (8 * n) (word false off n (p ++ a ++ r0))).
    { unfold word. rewrite slice_app, firstn_app_len by assumption. rewrite (le_of n a) at 1 by assumption. apply bytes2bits_le. }
    rewrite Hw, <- (app_nil_r (to_bits _ _)) in Eb.
    assert (HL : (off + n <= length (p ++ a ++ r0))%nat) by (rewrite !app_length; lia).
    destruct (bits_parsed false off n _ HL bs _ _ _ _ _ _ Ei G1 Eb) as (J1 & _ & J4 & J3).
    split.
    + intros k' H1 H2. rewrite I1; [|exact H1|intros X; apply H2, in_or_app; now right].
      rewrite copy_named_other by (intros X; apply H2, in_or_app; now left). apply dget_dset_neq. exact H1.
    + apply Forall_app. split; [|exact I2]. apply J3. intros k' Hk'.
      destruct (J4 _ Hk') as [x Hx].
      rewrite I1.
      * rewrite Hx. eapply lay_bits_named; eauto.
      * intros ->. apply (disjoint_in _ _ G0 _ Hk'). now left.
      * intros X. apply (disjoint_in _ _ G0 k' Hk'). now right.
Qed.

(** ** Reserved bits are ignored *)
Lemma slice_full off n s : (off + n <= length s)%nat -> length (slice off n s) = n.
Proof. intros H. unfold slice. rewrite firstn_length, skipn_length. lia. Qed.
Lemma skipn_plus {A} off : forall n (s : list A), skipn (off + n) s = skipn n (skipn off s).
Proof. induction off as [|off IH]; intros n [|x s]; cbn [skipn Nat.add]; try reflexivity; [now destruct n|apply IH]. Qed.
Lemma skipn_split off n s : (off + n <= length s)%nat -> skipn off s = slice off n s ++ skipn (off + n) s.
Proof. intros H. unfold slice. rewrite skipn_plus. symmetry. apply firstn_skipn. Qed.
Lemma skipn_bytes off s : bytes s -> bytes (skipn off s).
Proof. intros H. rewrite <- (firstn_skipn off s) in H. apply Forall_app in H. tauto. Qed.
Lemma slice_bytes off n s : bytes s -> bytes (slice off n s).
Proof. intros H. apply (skipn_bytes off) in H. unfold slice. rewrite <- (firstn_skipn n) in H. apply Forall_app in H. tauto. Qed.

Lemma fields_same fs : forall off items obj s s' u r,
  lay fs off = Some items -> bytes s -> bytes s' -> length s = length s' -> Forall (same s s') items ->
  parse_fields fs obj (skipn off s) = Ok (u, r) -> (off <= length s)%nat -> exists r', parse_fields fs obj (skipn off s') = Ok (u, r').
Proof.
  assert (COMMON : forall k c fs' off items s s' obj u r,
    lay (FCons k c fs') off = Some items -> bytes s -> bytes s' -> length s = length s' -> Forall (same s s') items -> (off <= length s)%nat ->
    (let* q := parse c obj (skipn off s) in let (v, r) := (q : val * list Z) in parse_fields fs' (dset k v obj) r) = Ok (u, r) ->
    (forall off items obj s s' u r, lay fs' off = Some items -> bytes s -> bytes s' -> length s = length s' -> Forall (same s s') items ->
       parse_fields fs' obj (skipn off s) = Ok (u, r) -> (off <= length s)%nat -> exists r', parse_fields fs' obj (skipn off s') = Ok (u, r')) ->
    exists r', (let* q := parse c obj (skipn off s') in let (v, r) := (q : val * list Z) in parse_fields fs' (dset k v obj) r) = Ok (u, r')).
  { intros k c fs' off items s s' obj u r Hl Bs Bs' Hlen Hs Ho H IH. cbn [lay] in Hl. destruct (_ && _) eqn:G0 in Hl; [|discriminate]. clear G0.
    apply bind_ok in H as ([x r0] & E & H).
    destruct (fsz c) as [n|] eqn:En.
    - destruct (_ && _) eqn:G2 in Hl; [|discriminate]. apply andb_prop in G2 as [W L]. destruct (lay fs' (off + n)) as [its|] eqn:El; [|discriminate]. injection Hl as <-.
      inversion Hs as [|? ? H1 H2]; subst. cbn [same] in H1.
      pose proof (parse_fixed _ _ _ _ _ _ En E) as Ln. rewrite skipn_length in Ln.
      destruct (parse_local _ _ _ _ _ W L (skipn_bytes _ _ Bs) E) as (a & Ea & Pa).
      assert (La : length a = n) by (apply (f_equal (@length _)) in Ea; rewrite app_length, skipn_length in Ea; lia).
      rewrite (skipn_split off n) in Ea by lia. apply app_len_inj in Ea as [Ea1 Ea2]; [|rewrite slice_full; lia].
      rewrite (skipn_split off n s') by lia. rewrite <- H1, Ea1, Pa by (apply skipn_bytes, Bs'). cbn [bind].
      assert (Hn : (off + n <= length s)%nat) by lia. rewrite <- Ea2 in H. exact (IH _ its _ s s' u r El Bs Bs' Hlen H2 H Hn).
    - destruct fs'; try discriminate. injection Hl as <-. inversion Hs as [|? ? H1 H2]; subst. cbn [same] in H1. rewrite <- H1, E. cbn [bind]. eauto. }
  induction fs as [|k c fs IH|k c dv fs IH|k e c fs IH|k n fs IH|k fs IH|n bs _ fs IH] using fields_ind;
    intros off items obj s s' u r Hl Bs Bs' Hlen Hs H Ho.
  - cbn in H. injection H as <- <-. cbn. eauto.
  - exact (COMMON k c fs off items s s' obj u r Hl Bs Bs' Hlen Hs Ho H IH).
  - exact (COMMON k c fs off items s s' obj u r Hl Bs Bs' Hlen Hs Ho H IH).
  - exact (COMMON k c fs off items s s' obj u r Hl Bs Bs' Hlen Hs Ho H IH).
  - cbn [lay] in Hl. destruct (match k with Some _ => _ | None => _ end) eqn:G0 in Hl; [|discriminate].
    destruct (lay fs (off + n)) as [its|] eqn:El; [|discriminate]. injection Hl as <-. inversion Hs as [|? ? H1 H2]; subst.
    cbn [parse_fields] in *. apply bind_ok in H as ([x r0] & E & H). apply take_ok in E as [E E'].
    assert (off + n <= length s)%nat by (apply (f_equal (@length _)) in E; rewrite app_length, skipn_length in E; lia).
    rewrite (skipn_split off n s) in E by lia. apply app_len_inj in E as [E1 E2]; [|rewrite slice_full; lia].
    rewrite (skipn_split off n s'), take_app' by (try apply slice_full; lia). cbn [bind]. rewrite <- E2 in H. exact (IH _ its _ s s' u r El Bs Bs' Hlen H2 H H0).
  - discriminate Hl.
  - cbn [lay] in Hl. destruct (_ && _) eqn:G0 in Hl; [|discriminate]. apply andb_prop in G0 as [G0 G1].
    destruct (lay_bits false off n bs (8 * n)) as [ib|] eqn:Ei; [|discriminate].
    destruct (lay fs (off + n)) as [its|] eqn:El; [|discriminate]. injection Hl as <-. apply Forall_app in Hs as [H1 H2].
    cbn [parse_fields] in *. apply bind_ok in H as ([a r0] & E & H). apply bind_ok in H as ([bd r1] & Eb & H). destruct r1; [|discriminate].
    apply take_ok in E as [E E'].
    assert (off + n <= length s)%nat by (apply (f_equal (@length _)) in E; rewrite app_length, skipn_length in E; lia).
    rewrite (skipn_split off n s) in E by lia. apply app_len_inj in E as [E1 E2]; [|rewrite slice_full; lia].
    assert (Hw : forall s, bytes s -> (off + n <= length s)%nat -> bytes2bits (rev (slice off n s)) = to_bits (8 * n) (word false off n s) ++ []).
    { intros x Bx Lx. rewrite app_nil_r. unfold word. rewrite (le_of n (slice off n x)) at 1 by (try apply slice_bytes; try apply slice_full; assumption). apply bytes2bits_le. }
    rewrite <- E1, Hw in Eb by assumption. apply (bits_same _ _ _ _ s' _ _ _ _ _ _ _ [] Ei H1) in Eb as [Eb _].
    rewrite (skipn_split off n s'), take_app' by (try apply slice_full; lia). cbn [bind]. rewrite Hw by (assumption || lia). rewrite Eb. cbn [bind].
    rewrite <- E2 in H. exact (IH _ its _ s s' u r El Bs Bs' Hlen H2 H H0).
Qed.

(** ** The three theorems *)
Lemma bits_struct_build be bs m items s d l n :
  (if distinct (fnames bs) then lay_bits be 0 n bs m else None) = Some items ->
  build_fields bs d d = Ok l -> bits2bytes l = ((if be then s else rev s), []) -> m = (8 * n)%nat -> Forall (built d s) items.
Proof.
  destruct (distinct _); [|discriminate]. intros Hl Hb E ->. destruct (bits_units _ _ _ _ _ _ _ _ _ Hl Hb) as [Bl Ll].
  destruct (bits2bytes_spec _ Bl _ _ E) as (Hbl & Bs & _). rewrite app_nil_r in Hbl.
  assert (Ls : length s = n).
  { apply (f_equal (@length _)) in Hbl. rewrite bytes2bits_length in Hbl. destruct be; [|rewrite rev_length in Hbl]; lia. }
  eapply (bits_built be 0 n); [lia|exact Hl|reflexivity|exact Hb| |reflexivity|reflexivity].
  unfold word, slice. cbn [skipn]. rewrite firstn_all2 by lia. rewrite Hbl. destruct be.
  - rewrite <- bytes2bits_le. rewrite <- (le_of n (rev s)), rev_involutive; [reflexivity|apply Forall_rev, Bs|rewrite rev_length; exact Ls].
  - apply Forall_rev in Bs. rewrite rev_involutive in Bs. rewrite <- bytes2bits_le, <- (le_of n s); auto.
Qed.

Theorem layout_build c items d s : layout_of c = Some items -> build_msg c (VDict d) = Ok s ->
  Forall (built (filled c d) s) items.
Proof.
  unfold build_msg. destruct c; cbn [layout_of]; try discriminate.
  - intros Hl H. cbn [build as_dict bind] in H. cbn [filled].
    eapply (fields_built _ 0 items d d [] s s); [exact Hl|reflexivity|exact H|reflexivity|reflexivity].
  - destruct c; try discriminate. destruct (fszf fs) as [m|] eqn:Em; [|discriminate]. intros Hl H. cbn [filled].
    cbn [build as_dict bind] in H. apply bind_ok in H as (l & El & H). destruct (bits2bytes l) as [s' lo] eqn:Eb. destruct lo; [|discriminate]. injection H as <-.
    eapply (bits_struct_build true fs m items s' d l (m / 8)%nat); [exact Hl|exact El|exact Eb|].
    pose proof (build_fields_len _ _ _ _ _ Em El) as L. apply bits2bytes_length in Eb. simpl in Eb.
    assert (m = (8 * length s')%nat) as -> by lia. rewrite (Nat.mul_comm 8 (length s')) at 2. rewrite Nat.div_mul by lia. reflexivity.
  - destruct c; try discriminate. destruct c; try discriminate. intros Hl H. cbn [filled].
    cbn [build as_dict bind] in H. apply bind_ok in H as (l0 & H & H0). injection H0 as <-.
    apply bind_ok in H as (l & El & H). destruct (bits2bytes l) as [s' lo] eqn:Eb. destruct lo; [|discriminate]. injection H as <-.
    eapply (bits_struct_build false fs _ items (rev s') d l n); [exact Hl|exact El|rewrite rev_involutive; exact Eb|reflexivity].
Qed.

Lemma bytes2bits_word (be : bool) n s : bytes s -> (n <= length s)%nat ->
  bytes2bits (if be then firstn n s else rev (firstn n s)) = to_bits (8 * n) (word be 0 n s).
Proof.
  intros B L. unfold word, slice. cbn [skipn]. rewrite <- bytes2bits_le. f_equal. destruct be.
  - rewrite <- (le_of n (rev (firstn n s))), rev_involutive; [reflexivity| |rewrite rev_length, firstn_length; lia].
    apply Forall_rev. apply (slice_bytes 0 n) in B. exact B.
  - rewrite <- (le_of n (firstn n s)); [reflexivity| |rewrite firstn_length; lia]. apply (slice_bytes 0 n) in B. exact B.
Qed.
Lemma lay_bits_fsz be off n bs : forall top items, lay_bits be off n bs top = Some items -> fszf bs = Some top.
Proof.
  assert (L : forall c w, bleaf c = Some w -> fsz c = Some w).
  { induction c; cbn [bleaf fsz]; intros w H; try discriminate H; auto. destruct sg; [discriminate|auto]. }
  induction bs as [|k c bs IH| | |k w bs IH| |] using fields_ind; cbn [lay_bits fszf]; intros top items Hl; try discriminate Hl.
  - destruct (Nat.eqb_spec top 0); congruence.
  - destruct (bleaf c) as [w|] eqn:Ew; [|discriminate]. destruct (Nat.leb_spec w top); [|discriminate].
    destruct (lay_bits be off n bs (top - w)) as [its|] eqn:El; [|discriminate]. rewrite (L _ _ Ew), (IH _ _ El). cbn [oadd]. f_equal. lia.
  - destruct k; [discriminate|]. destruct (Nat.leb_spec w top); [|discriminate].
    destruct (lay_bits be off n bs (top - w)) as [its|] eqn:El; [|discriminate]. rewrite (IH _ _ El). cbn [oadd]. f_equal. lia.
Qed.

Theorem layout_parse c items s v : layout_of c = Some items -> bytes s -> parse_msg c s = Ok v ->
  exists u, v = VDict u /\ Forall (parsed u s) items.
Proof.
  unfold parse_msg. intros Hl B H. apply bind_ok in H as ([v0 r] & H & E). injection E as ->.
  destruct c; cbn [layout_of] in Hl; try discriminate Hl.
  - cbn [parse] in H. apply bind_ok in H as ([u r'] & H & E). injection E as <- <-. exists u. split; [reflexivity|].
    eapply (fields_parsed fs 0 items [] [] s s u r'); auto.
  - destruct c; try discriminate. destruct (fszf fs) as [m|] eqn:Em; [|discriminate]. destruct (distinct (fnames fs)) eqn:D; [|discriminate].
    cbn [parse] in H. apply bind_ok in H as ([v0 r0] & H & E). apply bind_ok in H as ([u r1] & H & E1). injection E1 as <- <-.
    destruct (bits2bytes r1) as [r2 lo] eqn:Eb. destruct lo; [|discriminate]. injection E as <- <-. exists u. split; [reflexivity|].
    pose proof (proj1 (proj2 parse_fixed_mut) _ _ _ _ _ _ Em H) as L. rewrite bytes2bits_length in L. apply bits2bytes_length in Eb. simpl in Eb.
    assert (Hm : m = (8 * (m / 8))%nat).
    { assert (m = (8 * (length s - length r2))%nat) as -> by lia. rewrite (Nat.mul_comm 8) at 2. rewrite Nat.div_mul by lia. reflexivity. }
    rewrite <- (firstn_skipn (m / 8) s) in H at 1. rewrite bytes2bits_app in H. rewrite (bytes2bits_word true (m / 8)) in H by (auto; lia).
    rewrite <- Hm in H.
    destruct (bits_parsed true 0 (m / 8) s ltac:(lia) _ _ _ _ _ _ _ Hl D H) as (_ & _ & _ & P). apply P. reflexivity.
  - destruct c; try discriminate. destruct c; try discriminate. destruct (distinct (fnames fs)) eqn:D; [|discriminate].
    cbn [parse] in H. apply bind_ok in H as ([a r0] & Ea & H). apply bind_ok in H as ([v0 r1] & H & E). destruct r1; [|discriminate]. injection E as <- <-.
    apply bind_ok in H as ([v1 r1] & H & E). apply bind_ok in H as ([u r2] & H & E1). injection E1 as <- <-.
    destruct (bits2bytes r2) as [r3 lo] eqn:Eb. destruct lo; [|discriminate]. injection E as <- ->. exists u. split; [reflexivity|].
    apply take_ok in Ea as [-> La].
    rewrite <- (firstn_app_len a r0 n La) in H. rewrite (bytes2bits_word false n) in H by (auto; rewrite app_length; lia).
    rewrite <- (app_nil_r (to_bits _ _)) in H.
    destruct (bits_parsed false 0 n (a ++ r0) ltac:(rewrite app_length; lia) _ _ _ _ _ _ _ Hl D H) as (_ & _ & _ & P). apply P. reflexivity.
Qed.

Theorem layout_same c items s s' v : layout_of c = Some items -> bytes s -> bytes s' -> length s = length s' ->
  Forall (same s s') items -> parse_msg c s = Ok v -> parse_msg c s' = Ok v.
Proof.
  unfold parse_msg. intros Hl B B' L S H. apply bind_ok in H as ([v0 r] & H & E). injection E as ->.
  destruct c; cbn [layout_of] in Hl; try discriminate Hl.
  - cbn [parse] in *. apply bind_ok in H as ([u r'] & H & E). injection E as <- <-.
    destruct (fields_same fs 0 items [] s s' u r') as [r2 E]; auto; [lia|]. cbn [skipn] in E. rewrite E. reflexivity.
  - destruct c; try discriminate. destruct (fszf fs) as [m|] eqn:Em; [|discriminate]. destruct (distinct (fnames fs)) eqn:D; [|discriminate].
    cbn [parse] in *. apply bind_ok in H as ([v0 r0] & H & E). apply bind_ok in H as ([u r1] & H & E1). injection E1 as <- <-.
    destruct (bits2bytes r1) as [r2 lo] eqn:Eb. destruct lo; [|discriminate]. injection E as <- <-.
    pose proof (proj1 (proj2 parse_fixed_mut) _ _ _ _ _ _ Em H) as Ln. rewrite bytes2bits_length in Ln. apply bits2bytes_length in Eb. simpl in Eb.
    assert (Hm : m = (8 * (m / 8))%nat).
    { assert (m = (8 * (length s - length r2))%nat) as -> by lia. rewrite (Nat.mul_comm 8) at 2. rewrite Nat.div_mul by lia. reflexivity. }
    assert (K : forall s, bytes s -> (m / 8 <= length s)%nat -> bytes2bits s = to_bits m (word true 0 (m / 8) s) ++ bytes2bits (skipn (m / 8) s)).
    { intros x Bx Lx. rewrite <- (firstn_skipn (m / 8) x) at 1. rewrite bytes2bits_app. rewrite (bytes2bits_word true (m / 8)) by auto. now rewrite <- Hm. }
    rewrite K in H by (auto; lia). apply (bits_same _ _ _ _ s' _ _ _ _ _ _ _ (bytes2bits (skipn (m / 8) s')) Hl S) in H as [H _].
    rewrite (K s') by (auto; lia). rewrite H. cbn [bind]. rewrite bits2bytes_bytes2bits' by (apply skipn_bytes, B'). reflexivity.
  - destruct c; try discriminate. destruct c; try discriminate. destruct (distinct (fnames fs)) eqn:D; [|discriminate].
    cbn [parse] in *. apply bind_ok in H as ([a r0] & Ea & H). apply bind_ok in H as ([v0 r1] & H & E). destruct r1; [|discriminate]. injection E as <- <-.
    apply bind_ok in H as ([v1 r1] & H & E). apply bind_ok in H as ([u r2] & H & E1). injection E1 as <- <-.
    destruct (bits2bytes r2) as [r3 lo] eqn:Eb. destruct lo; [|discriminate]. injection E as <- ->.
    apply take_ok in Ea as [-> La]. rewrite app_length in L.
    rewrite <- (firstn_app_len a r0 n La) in H. rewrite (bytes2bits_word false n) in H by (auto; rewrite app_length; lia).
    rewrite <- (app_nil_r (to_bits _ _)) in H. apply (bits_same _ _ _ _ s' _ _ _ _ _ _ _ [] Hl S) in H as [H _].
    rewrite <- (firstn_skipn n s') at 1. rewrite take_app' by (rewrite firstn_length; lia). cbn [bind].
    rewrite (bytes2bits_word false n) by (auto; lia). rewrite app_nil_r in H. rewrite H. reflexivity.
Qed.

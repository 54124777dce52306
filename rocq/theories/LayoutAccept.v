(** * LayoutAccept: the converse of Layout: octets every item of which is readable are read, and fields every one of which
    can be written are written (basis of C60). *)
From Coq Require Import Lia.
From Verif Require Import PyVal Bits Utf8 Adapters Construct Size Master Local Deps BitLayout Layout Doc.

Definition takes (s : list Z) (i : item) : Prop :=
  match i with
  | At k c off n => (off + n <= length s)%nat /\ exists x, parse c [] (slice off n s) = Ok (x, [])
  | Bit k c be off n sh w => (off + n <= length s)%nat /\ exists x, parse c [] (to_bits w (getbits sh w (word be off n s))) = Ok (x, [])
  | Rsv be off n sh w => (off + n <= length s)%nat
  | Tail k c off => exists x r, parse c [] (skipn off s) = Ok (x, r)
  end.
Definition gives (d : dict) (i : item) : Prop :=
  match i with
  | At k c _ _ | Bit k c _ _ _ _ _ | Tail k c _ => exists x l, dget k d = Some x /\ x <> VNone /\ build c [] x = Ok l
  | Rsv _ _ _ _ _ => True
  end.
(** no item depends on another *)
Definition lone (i : item) : bool :=
  match i with At _ c _ _ | Bit _ c _ _ _ _ _ | Tail _ c _ => match deps c with [] => true | _ => false end | Rsv _ _ _ _ _ => true end.
Lemma lone_deps c : match deps c with [] => true | _ => false end = true -> deps c = [].
Proof. now destruct (deps c). Qed.

(** ** Reading *)
Lemma bits_len be off n bs : forall top items s, lay_bits be off n bs top = Some items -> (0 < top)%nat -> Forall (takes s) items -> (off + n <= length s)%nat.
Proof.
  induction bs as [|k c bs IH| | |k w bs IH| |] using fields_ind; cbn [lay_bits]; intros top items s Hl Ht F; try discriminate Hl.
  - destruct (Nat.eqb_spec top 0); [lia | discriminate].
  - destruct (bleaf c) as [w|]; [|discriminate]. destruct (Nat.leb_spec w top); [|discriminate]. destruct (lay_bits be off n bs (top - w)); [|discriminate]. injection Hl as <-.
    inversion F as [|? ? H1 _]; subst. exact (proj1 H1).
  - destruct k; [discriminate|]. destruct (Nat.leb_spec w top); [|discriminate]. destruct (lay_bits be off n bs (top - w)); [|discriminate]. injection Hl as <-.
    inversion F as [|? ? H1 _]; subst. exact H1.
Qed.
Lemma bits_take be off n s bs : forall top items obj rest, lay_bits be off n bs top = Some items -> Forall (takes s) items ->
  exists bd, parse_fields bs obj (to_bits top (word be off n s) ++ rest) = Ok (bd, rest).
Proof.
  induction bs as [|k c bs IH| | |k w bs IH| |] using fields_ind; cbn [lay_bits]; intros top items obj rest Hl Hs; try discriminate Hl.
  - destruct (Nat.eqb_spec top 0) as [->|]; [|discriminate]. cbn. eauto.
  - destruct (bleaf c) as [w|] eqn:Ew; [|discriminate]. destruct (Nat.leb_spec w top) as [Hw|]; [|discriminate].
    destruct (lay_bits be off n bs (top - w)) as [its|] eqn:El; [|discriminate]. injection Hl as <-. inversion Hs as [|? ? H1 H2]; subst. destruct H1 as (_ & x & P).
    destruct (bleaf_parse _ _ Ew _ _ _ _ P) as (a & Ea & La & Pa). rewrite app_nil_r in Ea. subst a.
    cbn [parse_fields]. rewrite (getbits_to_bits top w _ Hw), <- app_assoc, Pa. cbn [bind]. eapply IH; eauto.
  - destruct k; [discriminate|]. destruct (Nat.leb_spec w top) as [Hw|]; [|discriminate].
    destruct (lay_bits be off n bs (top - w)) as [its|] eqn:El; [|discriminate]. injection Hl as <-. inversion Hs as [|? ? H1 H2]; subst.
    cbn [parse_fields]. rewrite (getbits_to_bits top w _ Hw), <- app_assoc, take_app' by apply to_bits_length. cbn [bind]. eapply IH; eauto.
Qed.
Lemma fields_take fs : forall off items obj s, lay fs off = Some items -> forallb lone items = true -> bytes s -> Forall (takes s) items -> (off <= length s)%nat ->
  exists u r, parse_fields fs obj (skipn off s) = Ok (u, r).
Proof.
  assert (COMMON : forall k c fs' off items s obj,
    lay (FCons k c fs') off = Some items -> forallb lone items = true -> bytes s -> Forall (takes s) items -> (off <= length s)%nat ->
    (forall off items obj s, lay fs' off = Some items -> forallb lone items = true -> bytes s -> Forall (takes s) items -> (off <= length s)%nat ->
       exists u r, parse_fields fs' obj (skipn off s) = Ok (u, r)) ->
    exists u r, (let* q := parse c obj (skipn off s) in let (v, r) := (q : val * list Z) in parse_fields fs' (dset k v obj) r) = Ok (u, r)).
  { intros k c fs' off items s obj Hl Lo Bs Hs Ho IH. cbn [lay] in Hl. destruct (_ && _) eqn:G0 in Hl; [|discriminate]. clear G0. destruct (fsz c) as [n|] eqn:En.
    - destruct (_ && _) eqn:G2 in Hl; [|discriminate]. apply andb_prop in G2 as [W L]. destruct (lay fs' (off + n)) as [its|] eqn:El; [|discriminate]. injection Hl as <-.
      inversion Hs as [|? ? H1 H2]; subst. cbn [forallb lone] in Lo. apply andb_prop in Lo as [Lo1 Lo2]. apply lone_deps in Lo1. destruct H1 as (Hn & x & P).
      destruct (parse_local _ _ _ _ _ W L (slice_bytes off n _ Bs) P) as (a & Ea & Pa). rewrite app_nil_r in Ea. subst a.
      rewrite (parse_agree c obj []) by (rewrite Lo1; apply agree_nil). rewrite (skipn_split off n s Hn), Pa by (apply skipn_bytes, Bs). cbn [bind].
      exact (IH _ its _ s El Lo2 Bs H2 Hn).
    - destruct fs'; try discriminate. injection Hl as <-. inversion Hs as [|? ? H1 H2]; subst. cbn [forallb lone] in Lo. apply andb_prop in Lo as [Lo1 _]. apply lone_deps in Lo1. destruct H1 as (x & r & P).
      rewrite (parse_agree c obj []) by (rewrite Lo1; apply agree_nil). rewrite P. cbn [bind parse_fields]. eauto. }
  induction fs as [|k c fs IH|k c dv fs IH|k e c fs IH|k n fs IH|k fs IH|n bs _ fs IH] using fields_ind; intros off items obj s Hl Lo Bs Hs Ho.
  - cbn. eauto.
  - exact (COMMON k c fs off items s obj Hl Lo Bs Hs Ho IH).
  - exact (COMMON k c fs off items s obj Hl Lo Bs Hs Ho IH).
  - exact (COMMON k c fs off items s obj Hl Lo Bs Hs Ho IH).
  - cbn [lay] in Hl. destruct (match k with Some _ => _ | None => _ end) eqn:G0 in Hl; [|discriminate].
    destruct (lay fs (off + n)) as [its|] eqn:El; [|discriminate]. injection Hl as <-. inversion Hs as [|? ? H1 H2]; subst. cbn [takes] in H1. cbn [forallb lone] in Lo. apply andb_prop in Lo as [_ Lo].
    cbn [parse_fields]. rewrite (skipn_split off n s H1), take_app' by now apply slice_full. cbn [bind]. exact (IH _ its _ s El Lo Bs H2 H1).
  - discriminate Hl.
  - cbn [lay] in Hl. destruct (_ && _) eqn:G0 in Hl; [|discriminate]. destruct (lay_bits false off n bs (8 * n)) as [ib|] eqn:Ei; [|discriminate].
    destruct (lay fs (off + n)) as [its|] eqn:El; [|discriminate]. injection Hl as <-. apply Forall_app in Hs as [H1 H2]. rewrite forallb_app in Lo. apply andb_prop in Lo as [_ Lo].
    assert (Hn : (off + n <= length s)%nat) by (destruct n; [lia | exact (bits_len _ _ _ _ _ _ _ Ei ltac:(lia) H1)]).
    assert (Hw : bytes2bits (rev (slice off n s)) = to_bits (8 * n) (word false off n s) ++ []).
    { rewrite app_nil_r. unfold word. rewrite (le_of n (slice off n s)) at 1 by (try apply slice_bytes; try apply slice_full; assumption). apply bytes2bits_le. }
    cbn [parse_fields]. rewrite (skipn_split off n s Hn), take_app' by now apply slice_full. cbn [bind]. rewrite Hw.
    destruct (bits_take false off n s bs (8 * n) ib [] [] Ei H1) as (bd & E). rewrite E. cbn [bind]. exact (IH _ its _ s El Lo Bs H2 Hn).
Qed.
(** whole octets *)
Definition octets_ok (c : con) : bool :=
  match c with
  | CBitwise (CStruct bs) => match fszf bs with Some m => Nat.eqb m (8 * (m / 8)) && Nat.ltb 0 m | None => false end
  | CReversed n (CBitwise (CStruct bs)) => Nat.ltb 0 n
  | _ => true
  end.
Theorem layout_take c items s ctx : layout_of c = Some items -> octets_ok c = true -> forallb lone items = true -> bytes s -> Forall (takes s) items ->
  exists u r, parse c ctx s = Ok (VDict u, r).
Proof.
  intros Hl Oc Lo B F. destruct c; cbn [layout_of] in Hl; try discriminate Hl.
  - cbn [parse]. destruct (fields_take fs 0 items [] s Hl Lo B F ltac:(lia)) as (u & r & E). cbn [skipn] in E. rewrite E. cbn [bind]. eauto.
  - destruct c; try discriminate. cbn [octets_ok] in Oc. destruct (fszf fs) as [m|] eqn:Em; [|discriminate]. destruct (distinct (fnames fs)) eqn:D; [|discriminate].
    apply andb_prop in Oc as [Oc Om]. apply Nat.eqb_eq in Oc. apply Nat.ltb_lt in Om. pose proof (bits_len _ _ _ _ _ _ _ Hl Om F) as Ln. cbn [Nat.add] in Ln.
    assert (K : bytes2bits s = to_bits m (word true 0 (m / 8) s) ++ bytes2bits (skipn (m / 8) s)).
    { rewrite <- (firstn_skipn (m / 8) s) at 1. rewrite bytes2bits_app. rewrite (bytes2bits_word true (m / 8)) by auto. now rewrite <- Oc. }
    cbn [parse]. rewrite K. destruct (bits_take true 0 (m / 8) s fs m items [] (bytes2bits (skipn (m / 8) s)) Hl F) as (bd & ->). cbn [bind].
    rewrite bits2bytes_bytes2bits' by (apply skipn_bytes, B). eauto.
  - destruct c; try discriminate. destruct c; try discriminate. destruct (distinct (fnames fs)) eqn:D; [|discriminate]. cbn [octets_ok] in Oc. apply Nat.ltb_lt in Oc.
    pose proof (bits_len _ _ _ _ _ _ _ Hl ltac:(lia) F) as Ln. cbn [Nat.add] in Ln. cbn [parse].
    assert (Tk : take n s = Ok (firstn n s, skipn n s)) by (rewrite <- (firstn_skipn n s) at 1; apply take_app'; rewrite firstn_length; lia). rewrite Tk. cbn [bind].
    rewrite (bytes2bits_word false n) by auto. destruct (bits_take false 0 n s fs (8 * n) items [] [] Hl F) as (bd & E). rewrite app_nil_r in E. rewrite E. cbn [bind]. cbn [bits2bytes bind]. eauto.
Qed.

(** ** Writing *)
Lemma bits_give be off n bs : forall top items ctx obj, lay_bits be off n bs top = Some items -> Forall (gives obj) items -> exists a, build_fields bs ctx obj = Ok a.
Proof.
  induction bs as [|k c bs IH| | |k w bs IH| |] using fields_ind; cbn [lay_bits]; intros top items ctx obj Hl Hs; try discriminate Hl.
  - cbn. eauto.
  - destruct (bleaf c) as [w|] eqn:Ew; [|discriminate]. destruct (Nat.leb_spec w top) as [Hw|]; [|discriminate].
    destruct (lay_bits be off n bs (top - w)) as [its|] eqn:El; [|discriminate]. injection Hl as <-. inversion Hs as [|? ? H1 H2]; subst. destruct H1 as (x & l & Hx & _ & Hb).
    cbn [build_fields]. unfold dgetr. rewrite Hx. cbn [bind]. rewrite (build_agree c ctx []) by (rewrite (bleaf_deps c w Ew); apply agree_nil). rewrite Hb. cbn [bind].
    destruct (IH _ _ (dset k x ctx) obj El H2) as (a & ->). cbn [bind]. eauto.
  - destruct k; [discriminate|]. destruct (Nat.leb_spec w top) as [Hw|]; [|discriminate].
    destruct (lay_bits be off n bs (top - w)) as [its|] eqn:El; [|discriminate]. injection Hl as <-. inversion Hs as [|? ? H1 H2]; subst.
    cbn [build_fields]. destruct (IH _ _ ctx obj El H2) as (a & ->). cbn [bind]. eauto.
Qed.
Lemma units_whole be off n bs m items ctx obj a : lay_bits be off n bs (8 * m) = Some items -> build_fields bs ctx obj = Ok a -> exists l, bits2bytes a = (l, []).
Proof.
  intros Hl Hb. destruct (bits_units _ _ _ _ _ _ _ _ _ Hl Hb) as [Ba La]. destruct (bits2bytes a) as [l r] eqn:E. destruct (bits2bytes_spec _ Ba _ _ E) as (-> & _ & Lr).
  rewrite app_length, bytes2bits_length in La. exists l. f_equal. destruct r; [reflexivity | cbn [length] in *; lia].
Qed.
Definition same_at (ks : list string) (a b : dict) : Prop := forall k, In k ks -> dget k a = dget k b.
Lemma gives_same a b i : (forall k, match i with At j _ _ _ | Bit j _ _ _ _ _ _ | Tail j _ _ => j = k | _ => False end -> dget k a = dget k b) -> gives a i -> gives b i.
Proof. destruct i; cbn [gives]; auto; intros H (x & l & H1 & H2); exists x, l; rewrite <- H; auto. Qed.
Lemma lay_bits_names be off n bs : forall top items, lay_bits be off n bs top = Some items ->
  forall i, In i items -> match i with At j _ _ _ | Bit j _ _ _ _ _ _ | Tail j _ _ => In j (fnames bs) | _ => True end.
Proof.
  induction bs as [|k c bs IH| | |k w bs IH| |] using fields_ind; cbn [lay_bits]; intros top items Hl i Hi; try discriminate Hl.
  - destruct (Nat.eqb top 0); [|discriminate]. injection Hl as <-. destruct Hi.
  - destruct (bleaf c) as [w|]; [|discriminate]. destruct (Nat.leb_spec w top); [|discriminate]. destruct (lay_bits be off n bs (top - w)) eqn:El; [|discriminate]. injection Hl as <-.
    destruct Hi as [<- | Hi]; [now left|]. specialize (IH _ _ El _ Hi). destruct i; auto; now right.
  - destruct k; [discriminate|]. destruct (Nat.leb_spec w top); [|discriminate]. destruct (lay_bits be off n bs (top - w)) eqn:El; [|discriminate]. injection Hl as <-.
    destruct Hi as [<- | Hi]; [exact I|]. exact (IH _ _ El _ Hi).
Qed.
Lemma fields_give fs : forall off items ctx obj, lay fs off = Some items -> norebuild fs = true -> forallb lone items = true -> same_at (fnames fs) ctx obj -> Forall (gives obj) items ->
  exists s, build_fields fs ctx obj = Ok s.
Proof.
  assert (COMMON : forall k c fs' off items ctx obj, lay (FCons k c fs') off = Some items -> forallb lone items = true -> same_at (k :: fnames fs') ctx obj -> Forall (gives obj) items ->
    (forall off items ctx obj, lay fs' off = Some items -> forallb lone items = true -> same_at (fnames fs') ctx obj -> Forall (gives obj) items -> exists s, build_fields fs' ctx obj = Ok s) ->
    exists x s, dget k obj = Some x /\ x <> VNone /\ (let* a := build c ctx x in let* b := build_fields fs' (dset k x ctx) obj in Ok (a ++ b)) = Ok s).
  { intros k c fs' off items ctx obj Hl Lo Sm Hs IH. cbn [lay] in Hl. destruct (_ && _) eqn:G0 in Hl; [|discriminate]. clear G0.
    assert (Sm' : forall x, dget k obj = Some x -> same_at (fnames fs') (dset k x ctx) obj).
    { intros x Hx. rewrite dset_same; [intros j Hj; apply Sm; now right|]. rewrite <- Hx. apply Sm. now left. }
    destruct (fsz c) as [n|] eqn:En.
    - destruct (_ && _) in Hl; [|discriminate]. destruct (lay fs' (off + n)) as [its|] eqn:El; [|discriminate]. injection Hl as <-.
      inversion Hs as [|? ? H1 H2]; subst. destruct H1 as (x & l & Hx & Nx & Hb). cbn [forallb lone] in Lo. apply andb_prop in Lo as [Lo1 Lo2]. apply lone_deps in Lo1.
      exists x. rewrite (build_agree c ctx []) by (rewrite Lo1; apply agree_nil). rewrite Hb. cbn [bind]. destruct (IH _ its (dset k x ctx) obj El Lo2 (Sm' x Hx) H2) as (b & ->). cbn [bind]. eauto.
    - destruct fs'; try discriminate. injection Hl as <-. inversion Hs as [|? ? H1 H2]; subst. destruct H1 as (x & l & Hx & Nx & Hb). cbn [forallb lone] in Lo. apply andb_prop in Lo as [Lo1 _]. apply lone_deps in Lo1.
      exists x. rewrite (build_agree c ctx []) by (rewrite Lo1; apply agree_nil). rewrite Hb. cbn [bind build_fields]. eauto. }
  induction fs as [|k c fs IH|k c dv fs IH|k e c fs IH|k n fs IH|k fs IH|n bs _ fs IH] using fields_ind; intros off items ctx obj Hl Nr Lo Sm Hs.
  - cbn. eauto.
  - destruct (COMMON k c fs off items ctx obj Hl Lo Sm Hs (fun off items ctx obj H => IH off items ctx obj H Nr)) as (x & s & Hx & _ & E). cbn [build_fields]. unfold dgetr. rewrite Hx. cbn [bind]. rewrite E. eauto.
  - destruct (COMMON k c fs off items ctx obj Hl Lo Sm Hs (fun off items ctx obj H => IH off items ctx obj H Nr)) as (x & s & Hx & Nx & E). cbn [build_fields]. unfold dgetn. rewrite Hx. cbv zeta.
    destruct x; [congruence|..]; rewrite E; eauto.
  - discriminate Nr.
  - cbn [lay] in Hl. destruct (match k with Some _ => _ | None => _ end) eqn:G0 in Hl; [|discriminate].
    destruct (lay fs (off + n)) as [its|] eqn:El; [|discriminate]. injection Hl as <-. inversion Hs as [|? ? H1 H2]; subst. cbn [forallb lone] in Lo. apply andb_prop in Lo as [_ Lo].
    cbn [build_fields]. edestruct (IH _ its (match k with Some k => dset k (dgetn k obj) ctx | None => ctx end) obj El Nr Lo) as (b & ->); [|exact H2|cbn [bind]; eauto].
    destruct k as [k|]; [|exact Sm]. apply andb_prop in G0 as [G0 _]. apply negb_true_iff, kmem_in in G0. intros j Hj. rewrite dget_dset_neq by (intros ->; contradiction). apply Sm. now right.
  - discriminate Hl.
  - cbn [lay] in Hl. destruct (_ && _) eqn:G0 in Hl; [|discriminate]. destruct (lay_bits false off n bs (8 * n)) as [ib|] eqn:Ei; [|discriminate].
    destruct (lay fs (off + n)) as [its|] eqn:El; [|discriminate]. injection Hl as <-. apply Forall_app in Hs as [H1 H2]. rewrite forallb_app in Lo. apply andb_prop in Lo as [_ Lo].
    assert (H1' : Forall (gives ctx) ib).
    { rewrite Forall_forall in *. intros i Hi. apply (gives_same obj ctx i); [|auto]. intros k Hk. pose proof (lay_bits_names _ _ _ _ _ _ Ei i Hi) as Nm.
      destruct i; try contradiction; subst k; symmetry; apply Sm; cbn [fnames]; apply in_or_app; now left. }
    cbn [build_fields]. destruct (bits_give _ _ _ _ _ _ ctx ctx Ei H1') as (a & Ea). rewrite Ea. cbn [bind]. destruct (units_whole _ _ _ _ _ _ _ _ _ Ei Ea) as (l & ->).
    destruct (IH _ its ctx obj El Nr Lo) as (b & ->); [|exact H2|cbn [bind]; eauto]. intros k Hk. apply Sm. cbn [fnames]. apply in_or_app. now right.
Qed.
Theorem layout_give c items d ctx : layout_of c = Some items -> plain c = true -> octets_ok c = true -> forallb lone items = true -> Forall (gives d) items ->
  exists s, build c ctx (VDict d) = Ok s.
Proof.
  intros Hl Pl Oc Lo F. destruct c; cbn [layout_of] in Hl; try discriminate Hl.
  - cbn [build as_dict bind]. apply (fields_give fs 0 items d d Hl Pl Lo); [|exact F]. intros k _. reflexivity.
  - destruct c; try discriminate. cbn [octets_ok] in Oc. destruct (fszf fs) as [m|] eqn:Em; [|discriminate]. destruct (distinct (fnames fs)) eqn:D; [|discriminate].
    apply andb_prop in Oc as [Oc Om]. apply Nat.eqb_eq in Oc. cbn [build as_dict bind]. rewrite Oc in Hl at 2.
    destruct (bits_give _ _ _ _ _ _ d d Hl F) as (a & Ea). rewrite Ea. cbn [bind]. destruct (units_whole _ _ _ _ _ _ _ _ _ Hl Ea) as (l & ->). eauto.
  - destruct c; try discriminate. destruct c; try discriminate. destruct (distinct (fnames fs)) eqn:D; [|discriminate].
    cbn [build as_dict bind]. destruct (bits_give _ _ _ _ _ _ d d Hl F) as (a & Ea). rewrite Ea. cbn [bind]. destruct (units_whole _ _ _ _ _ _ _ _ _ Hl Ea) as (l & ->). cbn [bind]. eauto.
Qed.

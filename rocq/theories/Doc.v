(** * Doc: message documentation as tables.

    A [doc] entry is one row of a message table of the Mesh specifications: the
    name of a field, its octets (or bits of a little-endian / big-endian group of
    octets) and how its value is written there.  [doc_built d s] / [doc_parsed u s]
    say that the octets [s] of a message with fields [d] / [u] obey a row; they
    speak about octets only, not about the builder or the parser (a field whose
    coding is described elsewhere is marked [Own]). *)
From Verif Require Import PyVal Bits Utf8 Adapters Construct Size Spec Master Local Deps BitLayout Layout AdapterProofs1.

Inductive coding :=
| Num                (* an unsigned number: integers, enumerations, addresses, property ids *)
| Sgn                (* a two's complement number *)
| Flag               (* true or false *)
| Raw                (* the octets themselves *)
| Own (c : con).     (* the coding of that declaration *)
Inductive doc :=
| O (k : string) (off n : nat) (c : coding)                        (* octets off .. off+n-1, little endian *)
| B (k : string) (be : bool) (off n sh w : nat) (c : coding)       (* bits sh .. sh+w-1 of the number in those octets *)
| R (be : bool) (off n sh w : nat)                                 (* reserved bits *)
| T (k : string) (off : nat) (c : coding).                         (* all octets from off on *)

(** [x], an argument, is written as the octets [l] (or as the number [m] of [w] bits) *)
Definition wrote (d : dict) (x : val) (l : list Z) (c : coding) : Prop :=
  match c with
  | Num => forall z, as_int x = Some z -> 0 <= z < 2 ^ (8 * Z.of_nat (length l)) -> of_le l = z
  | Sgn => forall z, as_int x = Some z -> to_signed (8 * Z.of_nat (length l)) (of_le l) = z
  | Flag => l = [if truthy x then 1 else 0]
  | Raw => x = VBytes l
  | Own c => build c d x = Ok l
  end.
Definition wrote_bits (x : val) (m : Z) (w : nat) (c : coding) : Prop :=
  match c with
  | Num => forall z, as_int x = Some z -> 0 <= z < 2 ^ Z.of_nat w -> m = z
  | Flag => m = if truthy x then 1 else 0
  | _ => False
  end.
Definition doc_built (d : dict) (s : list Z) (i : doc) : Prop :=
  match i with
  | O k off n c => (off + n <= length s)%nat /\ exists x, dget k d = Some x /\ wrote d x (slice off n s) c
  | B k be off n sh w c => (off + n <= length s)%nat /\ exists x, dget k d = Some x /\ wrote_bits x (getbits sh w (word be off n s)) w c
  | R be off n sh w => (off + n <= length s)%nat /\ getbits sh w (word be off n s) = 0
  | T k off c => (off <= length s)%nat /\ exists x, dget k d = Some x /\ wrote d x (skipn off s) c
  end.

(** [x] is what the octets [l] are read as; [all]: nothing of [l] may be ignored *)
Definition read (u : dict) (all : bool) (x : val) (l : list Z) (c : coding) : Prop :=
  match c with
  | Num => as_int x = Some (of_le l)
  | Sgn => as_int x = Some (to_signed (8 * Z.of_nat (length l)) (of_le l))
  | Flag => x = VBool (negb (hd 0 l =? 0))
  | Raw => x = VBytes l
  | Own c => exists r, parse c u l = Ok (x, r) /\ (all = true -> r = [])
  end.
Definition read_bits (x : val) (m : Z) (c : coding) : Prop :=
  match c with
  | Num => as_int x = Some m
  | Flag => x = VBool (negb (m =? 0))
  | _ => False
  end.
Definition doc_parsed (u : dict) (s : list Z) (i : doc) : Prop :=
  match i with
  | O k off n c => (off + n <= length s)%nat /\ exists x, dget k u = Some x /\ read u true x (slice off n s) c
  | B k be off n sh w c => (off + n <= length s)%nat /\ exists x, dget k u = Some x /\ read_bits x (getbits sh w (word be off n s)) c
  | R be off n sh w => (off + n <= length s)%nat
  | T k off c => exists x, dget k u = Some x /\ read u false x (skipn off s) c
  end.
(** two byte strings agree on everything the documentation does not reserve *)
Definition doc_same (s s' : list Z) (i : doc) : Prop :=
  match i with
  | O _ off n _ => slice off n s = slice off n s'
  | B _ be off n sh w _ => getbits sh w (word be off n s) = getbits sh w (word be off n s')
  | R _ _ _ _ _ => True
  | T _ off _ => skipn off s = skipn off s'
  end.

(** ** The documentation of a declaration *)
Definition numad (a : adapter) : bool :=
  match a with AEnum _ | ARange _ _ | AMask _ | AAddrIn _ | AAddrOut _ => true | _ => false end.
Fixpoint numc (c : con) : option nat :=
  match c with
  | CInt n false | CBytesInt n true => Some n
  | CAdapt a c1 => if numad a then numc c1 else None
  | CSelect (ACons (CAdapt (AEnum _) (CInt n false)) (ACons (CInt m false) ANil)) => if Nat.eqb n m then Some n else None
  | _ => None
  end.
Definition cod (n : nat) (c : con) : coding :=
  match numc c with
  | Some m => if Nat.eqb n m then Num else Own c
  | None => match c with
            | CInt m true => if Nat.eqb n m && Nat.ltb 0 n then Sgn else Own c
            | CFlag => if Nat.eqb n 1 then Flag else Own c
            | CBytes m => if Nat.eqb n m then Raw else Own c
            | _ => Own c
            end
  end.
Fixpoint numb (c : con) : bool :=
  match c with
  | CBits _ false => true
  | CAdapt (AEnum t) CFlag => forallb (fun p => (snd p =? 0) || (snd p =? 1)) t
  | CAdapt a c1 => numad a && numb c1
  | _ => false
  end.
Definition codb (c : con) : option coding :=
  if numb c then Some Num else match c with CFlag => Some Flag | _ => None end.
Definition docd (i : item) : option doc :=
  match i with
  | At k c off n => Some (O k off n (cod n c))
  | Bit k c be off n sh w => match codb c, bleaf c with Some x, Some m => if Nat.eqb m w then Some (B k be off n sh w x) else None | _, _ => None end
  | Rsv be off n sh w => Some (R be off n sh w)
  | Tail k c off => Some (T k off (match c with CGreedyBytes => Raw | _ => Own c end))
  end.
Fixpoint docds (l : list item) : option (list doc) :=
  match l with
  | [] => Some []
  | i :: l' => match docd i, docds l' with Some x, Some r => Some (x :: r) | _, _ => None end
  end.

(** ** Numbers *)
Lemma numad_encode a v w z : numad a = true -> encode a v = Ok w -> as_int v = Some z -> as_int w = Some z.
Proof.
  intros Ha H Hz. destruct a; try discriminate Ha; cbn [encode] in H.
  - rewrite (enum_encode_int _ _ _ Hz) in H. destruct (by_value t z) as [m|] eqn:E; [|discriminate]. injection H as <-.
    induction t as [|[n' z'] t IH]; [discriminate|]. cbn [by_value] in E. destruct (Z.eqb_spec z z'); [|auto]. injection E as <-. now subst.
  - unfold validate in H. rewrite Hz in H. destruct (in_range _ _ _); [|discriminate]. now injection H as <-.
  - unfold validate in H. rewrite Hz in H. destruct (_ =? 0); [|discriminate]. now injection H as <-.
  - unfold validate in H. rewrite Hz in H. destruct (existsb _ _); [|discriminate]. now injection H as <-.
  - unfold validate in H. rewrite Hz in H. destruct (existsb _ _); [discriminate|]. now injection H as <-.
Qed.
Lemma numad_decode a w v : numad a = true -> decode a w = Ok v -> as_int v = as_int w.
Proof.
  intros Ha H. destruct a; try discriminate Ha; cbn [decode] in H.
  - unfold enum_decode in H. destruct (as_int w) as [z|] eqn:Ez; [|discriminate]. destruct (by_value t z) as [m|] eqn:E; [|discriminate]. injection H as <-.
    clear -E. induction t as [|[n' z'] t IH]; [discriminate|]. cbn [by_value] in E. destruct (Z.eqb_spec z z'); [|auto]. injection E as <-. now subst.
  - unfold validate in H. destruct (as_int w) eqn:Ez; [|discriminate]. destruct (in_range _ _ _); [|discriminate]. now injection H as <-.
  - unfold validate in H. destruct (as_int w) eqn:Ez; [|discriminate]. destruct (_ =? 0); [|discriminate]. now injection H as <-.
  - unfold validate in H. destruct (as_int w) eqn:Ez; [|discriminate]. destruct (existsb _ _); [|discriminate]. now injection H as <-.
  - unfold validate in H. destruct (as_int w) eqn:Ez; [|discriminate]. destruct (existsb _ _); [discriminate|]. now injection H as <-.
Qed.
Lemma cint_build n ctx x b z : build (CInt n false) ctx x = Ok b -> as_int x = Some z -> of_le b = z.
Proof.
  cbn [build]. unfold as_intr. intros H Hx. rewrite Hx in H. cbn [bind] in H. destruct (_ && _) eqn:E; [|discriminate]. injection H as <-.
  apply andb_prop in E as [E1 E2]. unfold int_min, int_max in *. rewrite of_to_le, pow256_2. apply Z.mod_small. lia.
Qed.
Lemma bytesint_build n ctx x b z : build (CBytesInt n true) ctx x = Ok b -> as_int x = Some z -> 0 <= z < 2 ^ (8 * Z.of_nat n) -> of_le b = z.
Proof.
  cbn [build]. unfold as_intr. intros H Hx Hz. rewrite Hx in H. cbn [bind] in H. destruct (Z.ltb_spec z 0); [discriminate|].
  unfold integer2bytes in H. destruct (Nat.leb _ _) eqn:E; [|discriminate]. cbn [bind] in H. injection H as <-.
  assert (Hn : (ndigits z - n = 0)%nat).
  { unfold ndigits. destruct (Z.eqb_spec z 0); [lia|]. assert (Z.log2 z < 8 * Z.of_nat n) by (apply Z.log2_lt_pow2; lia).
    assert (Z.log2 z / 8 < Z.of_nat n) by (apply Z.div_lt_upper_bound; lia). lia. }
  rewrite Hn. cbn [to_le app skipn]. rewrite of_to_le, pow256_2. now apply Z.mod_small.
Qed.
Lemma select_num_build t n ctx x b z :
  build (CSelect (ACons (CAdapt (AEnum t) (CInt n false)) (ACons (CInt n false) ANil))) ctx x = Ok b -> as_int x = Some z -> of_le b = z.
Proof.
  cbn [build build_alts]. intros H Hz. destruct (bind (encode (AEnum t) x) _) as [b'|e|] eqn:E; [|clear E|discriminate].
  - injection H as ->. apply bind_ok in E as (w & Ew & E). exact (cint_build n ctx w b z E (numad_encode (AEnum t) _ _ _ eq_refl Ew Hz)).
  - destruct (bind (as_intr x) _) as [b'|e'|] eqn:E; try discriminate. injection H as ->. exact (cint_build n ctx x b z E Hz).
Qed.
Lemma num_build c : forall n, numc c = Some n -> forall ctx x b z, build c ctx x = Ok b -> as_int x = Some z ->
  0 <= z < 2 ^ (8 * Z.of_nat n) -> of_le b = z.
Proof.
  induction c; intros m Hm ctx x b z H Hz R; try discriminate Hm.
  - destruct sg; [discriminate|]. exact (cint_build _ _ _ _ _ H Hz).
  - cbn [numc] in Hm. destruct swapped; [|discriminate]. injection Hm as <-. eapply bytesint_build; eauto.
  - cbn [numc] in Hm. destruct (numad a) eqn:Ha; [|discriminate]. cbn [build] in H. apply bind_ok in H as (w & Ew & H).
    exact (IHc m Hm ctx w b z H (numad_encode _ _ _ _ Ha Ew Hz) R).
  - cbn [numc] in Hm. destruct l as [|c1 l]; [discriminate|]. destruct c1; try discriminate. destruct a; try discriminate. destruct c1; try discriminate.
    destruct sg; [discriminate|]. destruct l as [|c2 l]; [discriminate|]. destruct c2; try discriminate. destruct sg; [discriminate|]. destruct l; [|discriminate].
    destruct (Nat.eqb_spec n n0); [|discriminate]. subst. eapply select_num_build; eauto.
Qed.
Lemma num_parse c : forall n, numc c = Some n -> forall ctx s x, parse c ctx s = Ok (x, []) -> as_int x = Some (of_le s).
Proof.
  assert (I : forall n ctx s x r, parse (CInt n false) ctx s = Ok (x, r) -> r = [] -> as_int x = Some (of_le s)).
  { intros n ctx s x r H ->. cbn [parse] in H. apply bind_ok in H as ([a r] & E & H). injection H as <- ->.
    apply take_ok in E as [-> _]. rewrite app_nil_r. reflexivity. }
  induction c; intros m Hm ctx s x H; try discriminate Hm.
  - destruct sg; [discriminate|]. eapply I; eauto.
  - cbn [numc] in Hm. destruct swapped; [|discriminate]. cbn [parse] in H. apply bind_ok in H as ([a r] & E & H). injection H as <- ->.
    apply take_ok in E as [-> _]. rewrite app_nil_r. reflexivity.
  - cbn [numc] in Hm. destruct (numad a) eqn:Ha; [|discriminate]. cbn [parse] in H. apply bind_ok in H as ([w r] & Ew & H).
    apply bind_ok in H as (v & Ev & H). injection H as <- ->. rewrite (numad_decode _ _ _ Ha Ev). exact (IHc m Hm ctx s w Ew).
  - cbn [numc] in Hm. destruct l as [|c1 l]; [discriminate|]. destruct c1; try discriminate. destruct a; try discriminate. destruct c1; try discriminate.
    destruct sg; [discriminate|]. destruct l as [|c2 l]; [discriminate|]. destruct c2; try discriminate. destruct sg; [discriminate|]. destruct l; [|discriminate].
    destruct (Nat.eqb_spec n n0); [|discriminate]. subst n0.
    cbn [parse parse_alts] in H. match type of H with match ?t with _ => _ end = _ => destruct t as [[v r]|e|] eqn:E end; [| |discriminate].
    + injection H as -> ->. apply bind_ok in E as ([w r] & Ew & H). apply bind_ok in H as (v & Ev & H). injection H as <- ->.
      rewrite (numad_decode (AEnum t) _ _ eq_refl Ev). exact (I n ctx s w [] Ew eq_refl).
    + destruct (bind (take n s) _) as [[v r]|e'|] eqn:E'; try discriminate. injection H as -> ->. exact (I n ctx s x [] E' eq_refl).
Qed.
Lemma sgn_build n ctx x b z : (0 < n)%nat -> build (CInt n true) ctx x = Ok b -> as_int x = Some z -> to_signed (8 * Z.of_nat n) (of_le b) = z.
Proof.
  intros Hn. cbn [build]. unfold as_intr. intros H Hx. rewrite Hx in H. cbn [bind] in H. destruct (_ && _) eqn:E; [|discriminate]. injection H as <-.
  apply andb_prop in E as [E1 E2]. unfold int_min, int_max in *. rewrite of_to_le, pow256_2. apply signed_roundtrip; lia.
Qed.
Lemma sgn_parse n ctx s x : parse (CInt n true) ctx s = Ok (x, []) -> as_int x = Some (to_signed (8 * Z.of_nat n) (of_le s)) /\ length s = n.
Proof. cbn [parse]. intros H. apply bind_ok in H as ([a r] & E & H). injection H as <- ->. apply take_ok in E as [-> L]. rewrite app_nil_r. split; [reflexivity|exact L]. Qed.

(** ** Bits *)
Lemma by_value_int t z m : by_value t z = Some m -> exists n, m = VEnum n z /\ In (n, z) t.
Proof.
  induction t as [|[n' z'] t IH]; [discriminate|]. cbn [by_value]. destruct (Z.eqb_spec z z').
  - intros H. injection H as <-. subst. exists n'. split; [reflexivity|now left].
  - intros H. destruct (IH H) as (n1 & -> & Hin). exists n1. split; [reflexivity|now right].
Qed.
Lemma numb_build c : numb c = true -> forall w, bleaf c = Some w -> forall ctx x b z, build c ctx x = Ok b -> as_int x = Some z ->
  0 <= z < 2 ^ Z.of_nat w -> of_bits b = z.
Proof.
  induction c; intros Hn w Hw ctx x b z H Hz R; try discriminate Hn.
  - destruct sg; [discriminate|]. cbn [bleaf] in Hw. injection Hw as <-. cbn [build] in H. unfold as_intr in H. rewrite Hz in H. cbn [bind] in H.
    destruct (_ && _); [discriminate|]. injection H as <-. rewrite of_to_bits. now apply Z.mod_small.
  - cbn [numb] in Hn. cbn [build] in H. apply bind_ok in H as (v & Ev & H).
    assert (K : numad a && numb c = true -> of_bits b = z).
    { intros K. apply andb_prop in K as [Ka Kc]. exact (IHc Kc w Hw ctx v b z H (numad_encode _ _ _ _ Ka Ev Hz) R). }
    destruct a; try (exact (K Hn)). destruct c; try (exact (K Hn)). clear K IHc.
    rewrite forallb_forall in Hn. cbn [encode] in Ev. rewrite (enum_encode_int _ _ _ Hz) in Ev.
    destruct (by_value t z) as [m|] eqn:E; [|discriminate]. injection Ev as <-. apply by_value_int in E as (n & -> & Hin).
    specialize (Hn _ Hin). cbn [snd] in Hn. cbn [build] in H. injection H as <-.
    assert (z = 0 \/ z = 1) as [-> | ->] by lia; reflexivity.
Qed.
Lemma numb_parse c : numb c = true -> forall w, bleaf c = Some w -> forall ctx m x, 0 <= m < 2 ^ Z.of_nat w -> parse c ctx (to_bits w m) = Ok (x, []) ->
  as_int x = Some m.
Proof.
  induction c; intros Hn w Hw ctx m x R H; try discriminate Hn.
  - destruct sg; [discriminate|]. cbn [bleaf] in Hw. injection Hw as <-. cbn [parse] in H. apply bind_ok in H as ([a r] & E & H). injection H as <- ->.
    apply take_ok in E as [E _]. rewrite app_nil_r in E. subst a. cbn [as_int]. f_equal. rewrite of_to_bits. now apply Z.mod_small.
  - cbn [numb] in Hn. cbn [parse] in H. apply bind_ok in H as ([v r] & Ev & H). apply bind_ok in H as (y & Ey & H). injection H as <- ->.
    assert (K : numad a && numb c = true -> as_int y = Some m).
    { intros K. apply andb_prop in K as [Ka Kc]. rewrite (numad_decode _ _ _ Ka Ey). exact (IHc Kc w Hw ctx m v R Ev). }
    destruct a; try (exact (K Hn)). destruct c; try (exact (K Hn)). clear K IHc. cbn [bleaf] in Hw. injection Hw as <-.
    rewrite (numad_decode (AEnum t) _ _ eq_refl Ey). cbn [parse] in Ev. destruct (to_bits 1 m) as [|b0 bs] eqn:Eb; [discriminate|]. injection Ev as <- ->.
    change (2 ^ Z.of_nat 1) with 2 in R. assert (m = 0 \/ m = 1) as [-> | ->] by lia; vm_compute in Eb; injection Eb as <-; reflexivity.
Qed.

(** ** From layouts to documentation *)
Lemma getbits_bound sh w z : 0 <= getbits sh w z < 2 ^ Z.of_nat w.
Proof. unfold getbits. apply Z.mod_pos_bound, Z.pow_pos_nonneg; lia. Qed.
Lemma cod_wrote n c d x l : length l = n -> build c d x = Ok l -> wrote d x l (cod n c).
Proof.
  intros L H. unfold cod. destruct (numc c) as [m|] eqn:E.
  - destruct (Nat.eqb_spec n m); [|exact H]. subst m. cbn [wrote]. intros z Hz R. rewrite L in R. eapply num_build; eauto.
  - destruct c; try exact H.
    + destruct sg; [|exact H]. destruct (Nat.eqb_spec n n0); [|exact H]. cbn [andb]. destruct (Nat.ltb_spec 0 n); [|exact H]. subst n0.
      cbn [wrote]. intros z Hz. rewrite L. eapply sgn_build; eauto.
    + destruct (Nat.eqb n 1); [|exact H]. cbn [build] in H. injection H as <-. reflexivity.
    + destruct (Nat.eqb n n0); [|exact H]. cbn [build] in H. destruct x; try discriminate. destruct (Nat.eqb _ _); [|discriminate]. now injection H as <-.
Qed.
Lemma cod_read n c u x l : length l = n -> parse c u l = Ok (x, []) -> read u true x l (cod n c).
Proof.
  intros L H. unfold cod. assert (Def : read u true x l (Own c)) by (exists []; auto). destruct (numc c) as [m|] eqn:E.
  - destruct (Nat.eqb_spec n m); [|exact Def]. cbn [read]. eapply num_parse; eauto.
  - destruct c; try exact Def.
    + destruct sg; [|exact Def]. destruct (Nat.eqb_spec n n0); [|exact Def]. cbn [andb]. destruct (Nat.ltb_spec 0 n); [|exact Def]. subst n0.
      cbn [read]. rewrite L. apply sgn_parse in H. tauto.
    + destruct (Nat.eqb n 1); [|exact Def]. cbn [parse] in H. destruct l; [discriminate|]. injection H as H1 H2. subst x. reflexivity.
    + destruct (Nat.eqb n n0); [|exact Def]. cbn [parse] in H. apply bind_ok in H as ([a r] & Ea & H). injection H as <- ->.
      apply take_ok in Ea as [-> _]. rewrite app_nil_r. reflexivity.
Qed.
Lemma codb_wrote c w ctx x bs k m : codb c = Some k -> bleaf c = Some w -> build c ctx x = Ok bs -> of_bits bs = m -> wrote_bits x m w k.
Proof.
  unfold codb. intros Hk Hw H <-. destruct (numb c) eqn:E.
  - injection Hk as <-. cbn [wrote_bits]. intros z Hz R. eapply numb_build; eauto.
  - destruct c; try discriminate. injection Hk as <-. cbn [build] in H. injection H as <-. cbn [wrote_bits]. destruct (truthy x); reflexivity.
Qed.
Lemma codb_read c w ctx x k m : codb c = Some k -> bleaf c = Some w -> 0 <= m < 2 ^ Z.of_nat w -> parse c ctx (to_bits w m) = Ok (x, []) -> read_bits x m k.
Proof.
  unfold codb. intros Hk Hw R H. destruct (numb c) eqn:E.
  - injection Hk as <-. cbn [read_bits]. eapply numb_parse; eauto.
  - destruct c; try discriminate. injection Hk as <-. cbn [bleaf] in Hw. injection Hw as <-. change (2 ^ Z.of_nat 1) with 2 in R.
    assert (m = 0 \/ m = 1) as [-> | ->] by lia; vm_compute in H; injection H as <-; reflexivity.
Qed.
Lemma docd_built d s i j : docd i = Some j -> built d s i -> doc_built d s j.
Proof.
  destruct i; cbn [docd built]; intros H Hb.
  - injection H as <-. destruct Hb as (L & x & Hx & Hb). cbn [doc_built]. split; [exact L|]. exists x. split; [exact Hx|].
    apply cod_wrote; [|exact Hb]. apply slice_full, L.
  - destruct (codb c) as [k'|] eqn:Ek; [|discriminate]. destruct (bleaf c) as [m|] eqn:Em; [|discriminate]. destruct (Nat.eqb_spec m w); [|discriminate]. subst m.
    injection H as <-. destruct Hb as (L & x & bs & Hx & Hb & _ & E). cbn [doc_built]. split; [exact L|]. exists x. split; [exact Hx|]. eapply codb_wrote; eauto.
  - injection H as <-. exact Hb.
  - injection H as <-. destruct Hb as (L & x & Hx & Hb). cbn [doc_built]. split; [exact L|]. exists x. split; [exact Hx|].
    destruct c; try exact Hb. cbn [build] in Hb. destruct x; try discriminate. injection Hb as <-. reflexivity.
Qed.
Lemma docd_parsed u s i j : docd i = Some j -> parsed u s i -> doc_parsed u s j.
Proof.
  destruct i; cbn [docd parsed]; intros H Hb.
  - injection H as <-. destruct Hb as (L & x & Hx & Hb). cbn [doc_parsed]. split; [exact L|]. exists x. split; [exact Hx|].
    apply cod_read; [|exact Hb]. apply slice_full, L.
  - destruct (codb c) as [k'|] eqn:Ek; [|discriminate]. destruct (bleaf c) as [m|] eqn:Em; [|discriminate]. destruct (Nat.eqb_spec m w); [|discriminate]. subst m.
    injection H as <-. destruct Hb as (L & x & Hx & Hb). cbn [doc_parsed]. split; [exact L|]. exists x. split; [exact Hx|].
    eapply codb_read; eauto using getbits_bound.
  - injection H as <-. exact Hb.
  - injection H as <-. destruct Hb as (x & r & Hx & Hb). cbn [doc_parsed]. exists x. split; [exact Hx|].
    destruct c; try (exists r; split; [exact Hb|discriminate]). cbn [parse] in Hb. injection Hb as <- <-. reflexivity.
Qed.
Lemma docd_same s s' i j : docd i = Some j -> doc_same s s' j -> same s s' i.
Proof.
  destruct i; cbn [docd same]; intros H Hb; try (injection H as <-; exact Hb).
  destruct (codb c); [|discriminate]. destruct (bleaf c); [|discriminate]. destruct (Nat.eqb _ _); [|discriminate]. injection H as <-. exact Hb.
Qed.
Lemma docds_Forall (P : item -> Prop) (Q : doc -> Prop) l : forall dl, (forall i j, docd i = Some j -> P i -> Q j) ->
  docds l = Some dl -> Forall P l -> Forall Q dl.
Proof.
  induction l as [|i l IH]; cbn [docds]; intros dl K H F.
  - injection H as <-. constructor.
  - destruct (docd i) as [x|] eqn:E; [|discriminate]. destruct (docds l) as [r|]; [|discriminate]. injection H as <-. inversion_clear F. constructor; eauto.
Qed.
Lemma docds_Forall' (P : item -> Prop) (Q : doc -> Prop) l : forall dl, (forall i j, docd i = Some j -> Q j -> P i) ->
  docds l = Some dl -> Forall Q dl -> Forall P l.
Proof.
  induction l as [|i l IH]; cbn [docds]; intros dl K H F.
  - constructor.
  - destruct (docd i) as [x|] eqn:E; [|discriminate]. destruct (docds l) as [r|]; [|discriminate]. injection H as <-. inversion_clear F. constructor; eauto.
Qed.

(** ** Messages with one or several forms *)
Definition doc_of (c : con) : option (list doc) := match layout_of c with Some l => docds l | None => None end.
Fixpoint docs_alts (l : alts) : option (list (string * list doc)) :=
  match l with
  | ANil => Some []
  | ACons (CNamed n c) l' => match doc_of c, docs_alts l' with Some d, Some r => Some ((n, d) :: r) | _, _ => None end
  | _ => None
  end.
(** the forms of a message: a single one, or the named alternatives *)
Definition docs_of (c : con) : option (list (string * list doc)) :=
  match c with
  | CSelect l => docs_alts l
  | _ => match doc_of c with Some d => Some [(""%string, d)] | None => None end
  end.

(** every field given by the caller is among the fields [d'] sent *)
Definition given (d d' : dict) : Prop := forall k x, dget k d = Some x -> x <> VNone -> dget k d' = Some x.
Fixpoint norebuild (fs : fields) : bool :=
  match fs with
  | FNil => true
  | FRebuild _ _ _ _ => false
  | FCons _ _ fs' | FDefault _ _ _ fs' | FPad _ _ fs' | FStopIf _ fs' | FBits _ _ fs' => norebuild fs'
  end.
Definition plain (c : con) : bool := match c with CStruct fs => norebuild fs | _ => true end.
Lemma given_refl d : given d d. Proof. intros k x H _. exact H. Qed.
Lemma given_trans a b c : given a b -> given b c -> given a c.
Proof. intros H1 H2 k x H N. apply H2; auto. Qed.
Lemma fill_given fs : forall d, norebuild fs = true -> given d (fill fs d).
Proof.
  induction fs as [|k c fs IH|k c dv fs IH|k e c fs IH|k n fs IH|k fs IH|n bs _ fs IH] using fields_ind; cbn [norebuild fill]; intros d H; try discriminate H; auto using given_refl.
  - eapply given_trans; [|apply IH, H]. intros k' x Hk N. unfold dgetn. destruct (String.eqb_spec k' k).
    + subst. rewrite Hk. rewrite dget_dset_eq. destruct x; congruence.
    + rewrite dget_dset_neq by congruence. exact Hk.
  - destruct k as [k|]; auto. eapply given_trans; [|apply IH, H]. intros k' x Hk N. unfold dgetn. destruct (String.eqb_spec k' k).
    + subst. now rewrite Hk, dget_dset_eq.
    + rewrite dget_dset_neq by congruence. exact Hk.
Qed.
Lemma filled_given c d : plain c = true -> given d (filled c d).
Proof. destruct c; cbn [plain filled]; auto using given_refl, fill_given. Qed.
Lemma layout_deps c l : layout_of c = Some l -> deps c = [].
Proof. destruct c; cbn [layout_of]; try discriminate; auto. destruct c; try discriminate; auto. destruct c; try discriminate; auto. destruct c; try discriminate; auto. Qed.

Lemma doc_build c dl ctx d s : doc_of c = Some dl -> build c ctx (VDict d) = Ok s -> Forall (doc_built (filled c d) s) dl.
Proof.
  unfold doc_of. destruct (layout_of c) as [l|] eqn:E; [|discriminate]. intros H Hb.
  rewrite (build_agree c ctx []) in Hb by (rewrite (layout_deps _ _ E); apply agree_nil).
  eapply docds_Forall; [|exact H|eapply layout_build; eauto]. intros. eapply docd_built; eauto.
Qed.
Lemma doc_parse c dl ctx s v r : doc_of c = Some dl -> bytes s -> parse c ctx s = Ok (v, r) -> exists u, v = VDict u /\ Forall (doc_parsed u s) dl.
Proof.
  unfold doc_of. destruct (layout_of c) as [l|] eqn:E; [|discriminate]. intros H B Hp.
  rewrite (parse_agree c ctx []) in Hp by (rewrite (layout_deps _ _ E); apply agree_nil).
  destruct (layout_parse c l s v E B) as (u & -> & F).
  { unfold parse_msg. rewrite Hp. reflexivity. }
  exists u. split; [reflexivity|]. eapply docds_Forall; [|exact H|exact F]. intros. eapply docd_parsed; eauto.
Qed.
(** no row refers to the hidden entry "_name" added to a named form *)
Definition doc_key (i : doc) : bool :=
  match i with
  | O k _ _ c | T k _ c => negb (String.eqb k "_name") && match c with Own c => negb (kmem "_name" (deps c)) | _ => true end
  | B k _ _ _ _ _ _ => negb (String.eqb k "_name")
  | R _ _ _ _ _ => true
  end.
Lemma doc_parsed_named u s i x : doc_key i = true -> doc_parsed u s i -> doc_parsed (dset "_name" x u) s i.
Proof.
  assert (K : forall all k y l c, match c with Own c => negb (kmem "_name" (deps c)) | _ => true end = true -> dget k u = Some y -> read u all y l c -> read (dset "_name" x u) all y l c).
  { intros all k y l c H _. destruct c; cbn [read]; auto. intros (r & P & Hr). exists r. split; [|exact Hr]. rewrite <- P. apply parse_agree.
    intros k' Hk'. apply dget_dset_neq. intros E. subst k'. apply negb_true_iff in H. now apply kmem_in in H. }
  assert (N : forall k y, negb (String.eqb k "_name") = true -> dget k u = Some y -> dget k (dset "_name" x u) = Some y).
  { intros k y H Hy. rewrite dget_dset_neq; [exact Hy|]. intros ->. discriminate. }
  destruct i; cbn [doc_key doc_parsed]; auto.
  - intros H (L & y & Hy & Hr). apply andb_prop in H as [H1 H2]. split; [exact L|]. exists y. eauto.
  - intros H (L & y & Hy & Hr). split; [exact L|]. exists y. eauto.
  - intros H (y & Hy & Hr). apply andb_prop in H as [H1 H2]. exists y. eauto.
Qed.

(** the number of octets a table describes; none if the last row takes all the rest *)
Fixpoint doc_len (dl : list doc) : option nat :=
  match dl with
  | [] => Some 0%nat
  | O _ off n _ :: dl' | B _ _ off n _ _ _ :: dl' | R _ off n _ _ :: dl' => option_map (Nat.max (off + n)) (doc_len dl')
  | T _ _ _ :: _ => None
  end.
Definition sized (c : con) : bool :=
  match doc_of c with
  | Some dl => match doc_len dl with Some n => match fsz c with Some m => Nat.eqb n m | None => false end | None => true end
  | None => false
  end.
Lemma sized_len c dl n ctx v s : sized c = true -> doc_of c = Some dl -> doc_len dl = Some n -> build c ctx v = Ok s -> length s = n.
Proof.
  unfold sized. intros H E L B. rewrite E, L in H. destruct (fsz c) as [m|] eqn:F; [|discriminate]. apply Nat.eqb_eq in H. subst m.
  eapply build_len; eauto.
Qed.
Definition forms_ok (c : con) : bool :=
  match c with
  | CSelect l => (fix go l := match l with ANil => true | ACons (CNamed n c) l' => plain c && sized c && match doc_of c with Some d => forallb doc_key d | None => false end && go l' | _ => false end) l
  | _ => plain c && sized c
  end.

(** the fields [d1] a form [f] is built from: the entry named like the form if there is one, else the object itself *)
Definition form_fields (f : string) (d d1 : dict) : Prop :=
  match dget f d with Some x => as_dict x = Ok d1 | None => d1 = d end.

Lemma docs_cases c : (exists l, c = CSelect l) \/
  (docs_of c = match doc_of c with Some d => Some [(""%string, d)] | None => None end /\ forms_ok c = plain c && sized c).
Proof. destruct c; try (right; split; reflexivity). left. eauto. Qed.

Theorem forms_build c fl ctx d s : docs_of c = Some fl -> forms_ok c = true -> build c ctx (VDict d) = Ok s ->
  exists f dl d1 d', In (f, dl) fl /\ (f = ""%string /\ d1 = d \/ form_fields f d d1) /\ given d1 d' /\ Forall (doc_built d' s) dl /\
    (forall n, doc_len dl = Some n -> length s = n).
Proof.
  intros Hf Ho H. destruct (docs_cases c) as [(l & ->) | (E1 & E2)].
  2: { rewrite E1 in Hf. rewrite E2 in Ho. apply andb_prop in Ho as [Ho Hz]. destruct (doc_of c) as [dl|] eqn:E; [|discriminate]. injection Hf as <-.
    exists ""%string, dl, d, (filled c d). split; [now left|]. split; [now left|]. split; [now apply filled_given|]. split; [eapply doc_build; eauto|].
    intros n Hn. eapply sized_len; eauto. }
  cbn [docs_of forms_ok build] in *. revert fl Hf.
  induction l as [|c l IH]; intros fl Hf; [discriminate|]. cbn [docs_alts] in Hf. destruct c; try discriminate.
  destruct (doc_of c) as [dl|] eqn:Ed; [|discriminate]. destruct (docs_alts l) as [r|] eqn:Er; [|discriminate]. injection Hf as <-.
  apply andb_prop in Ho as [Ho Ho2]. apply andb_prop in Ho as [Ho _]. apply andb_prop in Ho as [Ho Hz]. cbn [build_alts build] in H.
  match type of H with match ?t with _ => _ end = _ => destruct t as [s'|e|] eqn:E end.
  - injection H as ->. exists name, dl. unfold form_fields.
    assert (G : exists d1, (match dget name d with Some x => as_dict x = Ok d1 | None => d1 = d end) /\ Forall (doc_built (filled c d1) s) dl).
    { destruct (dget name d) as [x|] eqn:Ex.
      - destruct (as_dict x) as [d1|e|] eqn:Ea.
        + exists d1. split; [reflexivity|]. destruct x; try discriminate; cbn [as_dict] in Ea; injection Ea as <-.
          * clear -E Ed. assert (build c ctx (VDict []) = Ok s).
            { unfold doc_of in Ed. destruct (layout_of c) eqn:El; [|discriminate]. destruct c; cbn [layout_of] in El; try discriminate; [exact E|..].
              - destruct c; try discriminate; exact E.
              - destruct c; try discriminate. destruct c; try discriminate. exact E. }
            eapply doc_build; eauto.
          * eapply doc_build; eauto.
        + exfalso. unfold doc_of in Ed. destruct (layout_of c) eqn:El; [|discriminate]. clear -E Ea El.
          destruct c; cbn [layout_of] in El; try discriminate; cbn [build] in E.
          * rewrite Ea in E. discriminate.
          * destruct c; try discriminate. cbn [build] in E. rewrite Ea in E. discriminate.
          * destruct c; try discriminate. destruct c; try discriminate. cbn [build] in E. rewrite Ea in E. discriminate.
        + destruct x; discriminate.
      - exists d. split; [reflexivity|]. eapply doc_build; eauto. }
    destruct G as (d1 & G1 & G2). exists d1, (filled c d1). split; [now left|]. split; [now right|]. split; [now apply filled_given|]. split; [exact G2|].
    intros n Hn. destruct (dget name d); eapply sized_len; eauto.
  - destruct (IH H Ho2 r eq_refl) as (f & dl' & d1 & d' & Hin & K). exists f, dl', d1, d'. split; [now right|exact K].
  - discriminate.
Qed.

Theorem forms_parse c fl ctx s v r : docs_of c = Some fl -> forms_ok c = true -> bytes s -> parse c ctx s = Ok (v, r) ->
  exists f dl u, In (f, dl) fl /\ v = VDict u /\ Forall (doc_parsed u s) dl.
Proof.
  intros Hf Ho B H.
  destruct (docs_cases c) as [(l & ->) | (E1 & E2)].
  2: { rewrite E1 in Hf. destruct (doc_of c) as [dl|] eqn:E; [|discriminate]. injection Hf as <-.
    destruct (doc_parse _ _ _ _ _ _ E B H) as (u & -> & F). exists ""%string, dl, u. split; [now left|auto]. }
  cbn [docs_of forms_ok parse] in *. revert fl Hf.
  induction l as [|c l IH]; intros fl Hf; [discriminate|]. cbn [docs_alts] in Hf. destruct c; try discriminate.
  destruct (doc_of c) as [dl|] eqn:Ed; [|discriminate]. destruct (docs_alts l) as [fl'|] eqn:Er; [|discriminate]. injection Hf as <-.
  apply andb_prop in Ho as [Ho Ho2]. apply andb_prop in Ho as [_ Ho]. cbn [parse_alts parse] in H.
  match type of H with match ?t with _ => _ end = _ => destruct t as [[s' r']|e|] eqn:E end.
  - injection H as -> ->. apply bind_ok in E as ([v0 r0] & E & H). destruct v0; try discriminate. injection H as <- <-.
    destruct (doc_parse _ _ _ _ _ _ Ed B E) as (u & Hu & F). injection Hu as ->. exists name, dl, (dset "_name" (VStr (cps name)) u).
    split; [now left|]. split; [reflexivity|]. rewrite forallb_forall in Ho. rewrite Forall_forall in *. intros i Hi. apply doc_parsed_named; auto.
  - destruct (IH Ho2 H fl' eq_refl) as (f & dl' & u & Hin & K). exists f, dl', u. split; [now right|exact K].
  - discriminate.
Qed.

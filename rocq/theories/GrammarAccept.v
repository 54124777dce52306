(** * GrammarAccept: everything the grammar describes is accepted, whole (basis of C57). *)
From Verif Require Import PyVal Bits Utf8 Adapters Construct Size Master Sound Shape BitLayout P_layout P_text P_names Codes P_codes Grammar GrammarProofs.
From Coq Require Import Lia.
Local Open Scope list_scope.
Local Open Scope Z_scope.

(** [closed f]: the contents say themselves where they end; [tail f]: only the last part runs to the end; [head f]: not empty. *)
Fixpoint closed (f : fmt) : bool :=
  match f with
  | FAll | FRest _ | FRestSet _ | FForms _ _ _ _ _ => false
  | FCount g => closed g
  | FRec l => forallb (fun q => match snd q with Plain g => closed g | Items _ g => closed g end) l
  | FCase _ _ l | FOwn _ l => forallb (fun q => closed (snd q)) l
  | _ => true
  end.
Definition closed_fields (l : list (string * field)) : bool := forallb (fun q => match snd q with Plain g => closed g | Items _ g => closed g end) l.
Fixpoint head (f : fmt) : bool :=
  match f with
  | FU n | FS n | FE n _ | FFloat n | FWord n _ => Nat.ltb 0 n
  | FAll | FRest _ | FRestSet _ => false
  | FRec ((_, Plain g) :: _) => head g
  | FRec _ => false
  | FForms ((_, Plain g) :: _) _ _ _ _ => head g
  | FForms _ _ _ _ _ => false
  | _ => true
  end.
Fixpoint tail (f : fmt) : bool :=
  match f with
  | FAll => true
  | FRest g | FRestSet g => closed g && head g
  | FRec l => (fix tl (l : list (string * field)) : bool :=
      match l with [] => true | [(_, Plain g)] => tail g | (_, Plain g) :: l' => closed g && tl l' | (_, Items _ g) :: l' => closed g && tl l' end) l
  | FForms l _ _ _ g => closed_fields l && head g && tail g
  | FCase _ _ l | FOwn _ l => forallb (fun q => tail (snd q)) l
  | f => closed f
  end.
Fixpoint tail_fields (l : list (string * field)) : bool :=
  match l with [] => true | [(_, Plain g)] => tail g | (_, Plain g) :: l' => closed g && tail_fields l' | (_, Items _ g) :: l' => closed g && tail_fields l' end.
Lemma tail_rec l : tail (FRec l) = tail_fields l.
Proof. induction l as [|[k [g|kc g]] l IH]; [reflexivity| |]; cbn [tail tail_fields]; cbn [tail] in IH; now rewrite IH. Qed.
Lemma tail_app l k g : closed_fields l = true -> tail g = true -> tail_fields (l ++ [(k, Plain g)]) = true.
Proof.
  intros H Hg. induction l as [|[j [h|kc h]] l IH]; [exact Hg| |]; cbn [closed_fields forallb snd] in H; apply andb_true_iff in H as [H1 H2]; specialize (IH H2); cbn [app tail_fields]; rewrite H1, IH;
    [destruct (l ++ _) eqn:E; [destruct l; discriminate | reflexivity] | reflexivity].
Qed.

(** ** Nothing is read from no octets *)
Definition rejects (c : con) (f : fmt) : Prop := head f = true -> forall ctx, exists e, parse c ctx [] = Err e.
Definition rejects_fields (fs : fields) (l : list (string * field)) : Prop :=
  match l with (_, Plain g) :: _ => head g | _ => false end = true -> forall obj, exists e, parse_fields fs obj [] = Err e.
Lemma rejects_all : (forall c f, form c f -> rejects c f) /\ (forall L fs l, form_fields L fs l -> rejects_fields fs l) /\ (forall cs l, form_cases cs l -> True).
Proof.
  apply form_mutind; unfold rejects, rejects_fields; try (intros; exact I); try (cbn [head]; intros; discriminate).
  - intros n H ctx. cbn [head] in H. apply Nat.ltb_lt in H. destruct n; [lia|]. eexists. reflexivity.
  - intros n Hn _ ctx. destruct n; [lia|]. eexists. reflexivity.
  - intros n sg t t' Hn _ _ ctx. destruct n; [lia|]. eexists. reflexivity.
  - intros n H ctx. cbn [head] in H. apply Nat.ltb_lt in H. destruct n; [lia|]. eexists. reflexivity.
  - intros _ ctx. eexists. reflexivity.
  - intros _ ctx. eexists. reflexivity.
  - intros n bs l _ _ _ H ctx. cbn [head] in H. apply Nat.ltb_lt in H. destruct n; [lia|]. eexists. reflexivity.
  - intros c f _ _ _ ctx. eexists. reflexivity.
  - intros fs l _ IH _ H ctx. cbn [parse]. destruct (IH H []) as (e & ->). eexists. reflexivity.
  - intros fs1 fs2 l n1 n2 k f _ IH1 _ IH2 _ _ _ H ctx. cbn [parse parse_alts]. destruct l as [|[j [g|]] l]; try discriminate. destruct (IH1 H []) as (e1 & ->). destruct (IH2 H []) as (e2 & ->). eexists. reflexivity.
  - intros k o t cs l _ _ _ _ _ ctx. eexists. reflexivity.
  - intros k t sw cs l _ _ _ _ ctx. eexists. reflexivity.
  - intros c P _ _ _ Hr _ ctx. apply Hr.
  - intros _ ctx. eexists. reflexivity.
  - intros L k c f fs l _ IH _ _ H obj. cbn [parse_fields]. destruct (IH H obj) as (e & ->). eexists. reflexivity.
  - intros L k k' n f fs l _ _ _ H obj. cbn [head] in H. apply Nat.ltb_lt in H. destruct n; [lia|]. eexists. reflexivity.
Qed.

(** ** Everything is read *)
Definition reads (c : con) (f : fmt) : Prop := forall b ctx v s r, bytes (s ++ r) -> enc b f v s -> exists v', parse c ctx (s ++ r) = Ok (v', r) /\ as_int v' = as_int v.
Definition ends (c : con) (f : fmt) : Prop := forall b ctx v s, bytes s -> enc b f v s -> exists v', parse c ctx s = Ok (v', []) /\ as_int v' = as_int v.
Definition accepts (c : con) (f : fmt) : Prop := (closed f = true -> reads c f) /\ (tail f = true -> ends c f).
Definition like (e obj : dict) : Prop := forall k w z, dget k e = Some w -> as_int w = Some z -> exists w', dget k obj = Some w' /\ as_int w' = Some z.
Definition new (l : list (string * field)) (e : dict) : Prop := NoDup (map fst l) /\ forall k, In k (map fst l) -> dget k e = None.
Definition accepts_fields (fs : fields) (l : list (string * field)) : Prop :=
  (closed_fields l = true -> forall b e d s r obj, bytes (s ++ r) -> enc_fields b e l d s -> new l e -> like e obj -> exists d', parse_fields fs obj (s ++ r) = Ok (d', r)) /\
  (tail_fields l = true -> forall b e d s obj, bytes s -> enc_fields b e l d s -> new l e -> like e obj -> exists d', parse_fields fs obj s = Ok (d', [])) /\
  (forall l' k g, l = l' ++ [(k, Plain g)] -> closed_fields l' = true -> head g = true ->
     forall b e d s obj, bytes s -> enc_fields b e l' d s -> new l' e -> like e obj -> exists x, parse_fields fs obj s = Err x).
Lemma like_next e obj k x x' : like e obj -> dget k e = None -> as_int x' = as_int x -> like (e ++ [(k, x)]) (dset k x' obj).
Proof.
  intros H Hk Hx k0 w z Hw Hz. rewrite dget_dset. rewrite dget_app in Hw. destruct (String.eqb_spec k0 k) as [->|Hn].
  - rewrite Hk in Hw. cbn [dget] in Hw. rewrite String.eqb_refl in Hw. injection Hw as <-. exists x'. split; [reflexivity | congruence].
  - destruct (dget k0 e) eqn:E; [injection Hw as <-; eauto|]. cbn [dget] in Hw. apply String.eqb_neq in Hn. rewrite Hn in Hw. discriminate.
Qed.
Lemma new_next k g l e x : new ((k, g) :: l) e -> dget k e = None /\ new l (e ++ [(k, x)]).
Proof.
  intros [Hn Hf]. inversion Hn as [|? ? Hk Hn']; subst. split; [apply Hf; now left|]. split; [exact Hn'|]. intros j Hj. rewrite dget_app.
  rewrite Hf by (now right). cbn [dget]. destruct (String.eqb_spec j k) as [->|]; [contradiction | reflexivity].
Qed.
Lemma list_read c f : reads c f -> forall b ctx l s r, bytes (s ++ r) -> enc_list b f l s -> exists l', times_parse (parse c ctx) (length l) (s ++ r) = Ok (l', r) /\ length l' = length l.
Proof.
  intros Hc b ctx l. induction l as [|x l IH]; intros s r B H; inversion H; subst; [exists []; split; reflexivity|]. rewrite <- app_assoc in B |- *. cbn [length times_parse].
  destruct (Hc _ ctx _ _ _ B ltac:(eassumption)) as (x' & -> & _). cbn [bind]. apply Forall_app in B as [_ B]. destruct (IH _ _ B ltac:(eassumption)) as (l' & -> & Hl). cbn [bind]. exists (x' :: l'). split; [reflexivity | cbn; congruence].
Qed.
Lemma rest_read c f : reads c f -> (forall ctx, exists e, parse c ctx [] = Err e) -> forall b ctx l s n, bytes s -> enc_list b f l s -> (length s < n)%nat -> exists l', greedy (parse c ctx) n s = Ok (l', []).
Proof.
  intros Hc Hr b ctx l. induction l as [|x l IH]; intros s n B H Hn; inversion H; subst.
  - destruct n; [inversion Hn|]. cbn [greedy]. destruct (Hr ctx) as (e & ->). eauto.
  - destruct n as [|n]; [inversion Hn|]. cbn [greedy]. destruct (Hc _ ctx _ _ _ B ltac:(eassumption)) as (x' & E & _). rewrite E.
    assert (La : a <> []). { intros ->. destruct (Hr ctx) as (e & Er). destruct (Hc b ctx x [] [] (Forall_nil _) ltac:(assumption)) as (? & E' & _). cbn [app] in E'. congruence. }
    rewrite app_length in Hn |- *. destruct a as [|a0 a]; [congruence|]. cbn [length] in Hn |- *. destruct (Nat.ltb_spec (length s0) (S (length a) + length s0)); [|lia].
    apply Forall_app in B as [_ B]. destruct (IH s0 n B ltac:(assumption) ltac:(lia)) as (l' & ->). cbn [bind]. eauto.
Qed.
Lemma closed_ends c f : tail f = closed f -> (closed f = true -> reads c f) -> accepts c f.
Proof.
  intros Ht H. split; [exact H|]. intros Hc b ctx v s B He. rewrite Ht in Hc. destruct (H Hc b ctx v s [] ltac:(now rewrite app_nil_r) He) as (v' & E & Ev). rewrite app_nil_r in E. eauto.
Qed.
Lemma only_ends c f : closed f = false -> (tail f = true -> ends c f) -> accepts c f.
Proof. intros Hc H. split; [congruence | exact H]. Qed.
Lemma take_le n z r : take n (to_le n z ++ r) = Ok (to_le n z, r).
Proof. apply take_app'. apply to_le_length. Qed.
Lemma bits_read bs l : form_bits bs l -> forall obj d N r, bits r -> packed l d N -> exists d', parse_fields bs obj (to_bits (width l) N ++ r) = Ok (d', r).
Proof.
  assert (S1 : forall w z n N r, take w (to_bits (w + n) (z * 2 ^ Z.of_nat n + N) ++ r) = Ok (to_bits w ((z * 2 ^ Z.of_nat n + N) / 2 ^ Z.of_nat n), to_bits n (z * 2 ^ Z.of_nat n + N) ++ r)).
  { intros. rewrite to_bits_split, <- app_assoc. apply take_app'. apply to_bits_length. }
  assert (S2 : forall z n N, to_bits n (z * 2 ^ Z.of_nat n + N) = to_bits n N).
  { intros. unfold to_bits. f_equal. rewrite <- to_lsb_mod, <- (to_lsb_mod n N). f_equal. rewrite Z.add_comm. apply Z.mod_add. apply Z.pow_nonzero; lia. }
  induction 1 as [|k w fs l _ IH|k n fs l _ IH]; intros obj d N r B P; inversion P as [|? ? ? z d0 N0 Hz P0]; subst; cbn [parse_fields parse].
  - eexists. reflexivity.
  - cbn [width]. rewrite S1. cbn [bind]. rewrite S2. eapply IH; eassumption.
  - cbn [width]. rewrite to_bits_split, <- app_assoc, S2.
    set (X := to_bits (width l) N0 ++ r). assert (BX : bits X) by (apply Forall_app; split; [apply to_bits_bits | exact B]).
    destruct (bits2bytes X) as [xb xl] eqn:EX. destruct (bits2bytes_spec X BX _ _ EX) as (HX & Bb & Hl).
    rewrite <- bytes2bits_le. fold X. replace X with (bytes2bits xb ++ xl) by (symmetry; exact HX). rewrite app_assoc, <- bytes2bits_app.
    rewrite bits2bytes_bytes2bits; [|apply Forall_app; split; [apply Forall_rev, to_le_bytes | exact Bb] | exact Hl].
    rewrite take_app' by (rewrite rev_length; apply to_le_length). cbn [bind]. rewrite <- HX. unfold X. eapply IH; eassumption.
Qed.
Lemma int_read n sg z r : (0 < n)%nat -> int_min n sg <= z <= int_max n sg -> forall ctx, parse (CInt n sg) ctx (to_le n (z mod 256 ^ Z.of_nat n) ++ r) = Ok (VInt z, r).
Proof.
  intros Hn Hr ctx. cbn [parse]. rewrite take_le. cbn [bind]. do 3 f_equal. unfold int_of. rewrite of_to_le, Z.mod_mod by (apply Z.pow_nonzero; lia).
  apply (int_range n sg z Hn) in Hr. destruct sg; [|apply Z.mod_small; exact Hr]. unfold to_signed. rewrite <- pow2_256.
  assert (Hp : 256 ^ Z.of_nat n = 2 * 2 ^ (8 * Z.of_nat n - 1)) by (rewrite pow2_256; replace (8 * Z.of_nat n) with (Z.succ (8 * Z.of_nat n - 1)) at 1 by lia; now rewrite Z.pow_succ_r by lia).
  destruct (Z.ltb_spec z 0).
  - replace (z mod 256 ^ Z.of_nat n) with (z + 256 ^ Z.of_nat n) by (apply (Z.mod_unique _ _ (-1)); lia). destruct (Z.ltb_spec (z + 256 ^ Z.of_nat n) (2 ^ (8 * Z.of_nat n - 1))); lia.
  - rewrite Z.mod_small by lia. destruct (Z.ltb_spec z (2 ^ (8 * Z.of_nat n - 1))); lia.
Qed.
Lemma forallb_In {A} (p : A -> bool) l x : forallb p l = true -> In x l -> p x = true.
Proof. intros H Hi. rewrite forallb_forall in H. auto. Qed.
Lemma accepts_all : (forall c f, form c f -> accepts c f) /\ (forall L fs l, form_fields L fs l -> accepts_fields fs l) /\
  (forall cs l, form_cases cs l -> all_cases accepts cs l).
Proof.
  apply form_mutind.
  - intros n. apply closed_ends; [reflexivity|]. intros _ b ctx v s r B H. inversion H; subst. cbn [parse]. rewrite take_le. cbn [bind].
    eexists. split; [reflexivity|]. cbn [as_int]. unfold int_of. rewrite of_to_le, Z.mod_small by assumption. reflexivity.
  - intros n Hn. apply closed_ends; [reflexivity|]. intros _ b ctx v s r B H. inversion H; subst. rewrite int_read; [eauto | exact Hn | now apply int_range].
  - intros n sg t t' Hn Hs. apply closed_ends; [reflexivity|]. intros _ b ctx v s r B H. inversion H; subst. destruct (codes_same_out _ _ _ _ _ _ Hs ltac:(eassumption)) as [Hv Hr].
    rewrite parse_adapt, int_read by assumption. cbn [bind decode]. unfold enum_decode. cbn [as_int]. rewrite Hv. cbn [bind]. eauto.
  - intros n. apply closed_ends; [reflexivity|]. intros _ b ctx v s r B H. inversion H; subst. cbn [parse]. rewrite take_le. cbn [bind]. eauto.
  - apply closed_ends; [reflexivity|]. intros _ b ctx v s r B H. inversion H; subst. cbn [parse app]. rewrite Nat2Z.id, take_app' by reflexivity. cbn [bind]. eauto.
  - apply closed_ends; [reflexivity|]. intros _ b ctx v s r B H. inversion H as [| | | | | t l Hu Hl| | | | | | | | | | | | |]; subst. cbn [parse app]. rewrite Nat2Z.id, take_app' by reflexivity. cbn [bind].
    destruct (C39_utf8_decode_encode _ _ Hu) as [-> _]. eauto.
  - apply only_ends; [reflexivity|]. intros _ b ctx v s B H. inversion H; subst. cbn [parse]. eauto.
  - intros n bs l Hb Hw Hd. apply closed_ends; [reflexivity|]. intros _ b ctx v s r B H. inversion H as [| | | | | | |n' l' d N P| | | | | | | | | | |]; subst. cbn [parse]. rewrite take_le. cbn [bind].
    destruct (bits_read _ _ Hb [] d N [] (Forall_nil _) P) as (d' & E). rewrite app_nil_r, Hw, <- bytes2bits_le in E. rewrite E. cbn [bind]. cbn. eauto.
  - intros c f _ [IH _]. apply closed_ends; [reflexivity|]. intros Hc b ctx v s r B H. inversion H; subst. cbn [parse app]. rewrite Nat2Z.id. inversion B as [|? ? _ B']; subst.
    destruct (list_read _ _ (IH Hc) b ctx _ _ _ B' ltac:(eassumption)) as (l' & E & _). rewrite E. cbn [bind]. eauto.
  - intros c f Hf [IH _]. apply only_ends; [reflexivity|]. intros Ht b ctx v s B H. cbn [tail] in Ht. apply andb_true_iff in Ht as [Hc Hh]. inversion H; subst. cbn [parse].
    destruct (rest_read _ _ (IH Hc) (proj1 rejects_all _ _ Hf Hh) b ctx _ _ (S (length s)) B ltac:(eassumption) ltac:(lia)) as (l' & ->). cbn [bind]. eauto.
  - intros c f Hf [IH _] _. apply only_ends; [reflexivity|]. intros Ht b ctx v s B H. cbn [tail] in Ht. apply andb_true_iff in Ht as [Hc Hh].
    assert (Hl : exists l l0, v = VSet l /\ enc_list b f l0 s) by (inversion H; subst; eauto). destruct Hl as (l & l0 & -> & Hl). rewrite parse_adapt. cbn [parse].
    destruct (rest_read _ _ (IH Hc) (proj1 rejects_all _ _ Hf Hh) b ctx _ _ (S (length s)) B Hl ltac:(lia)) as (l' & ->). cbn [bind decode set_decode]. eauto.
  - intros fs l _ (IH1 & IH2 & _) Hd.
    assert (Hn : new l []) by (split; [now apply distinct_NoDup | reflexivity]). assert (Hk : like [] []) by (intros k w z E; discriminate). split.
    + intros Hc b ctx v s r B H. inversion H as [| | | | | | | | | | | |l' d s' He| | | | | |]; subst. cbn [parse]. destruct (IH1 Hc b [] d s r [] B He Hn Hk) as (d' & ->). cbn [bind]. eauto.
    + intros Hc b ctx v s B H. rewrite tail_rec in Hc. inversion H as [| | | | | | | | | | | |l' d s' He| | | | | |]; subst. cbn [parse]. destruct (IH2 Hc b [] d s [] B He Hn Hk) as (d' & ->). cbn [bind]. eauto.
  - intros fs1 fs2 l n1 n2 k f _ (_ & IH1 & IM) _ (IH2 & _ & _) D1 D2 D3. apply only_ends; [reflexivity|]. intros Ht b ctx v s B H.
    cbn [tail] in Ht. apply andb_true_iff in Ht as [Ht Hf]. apply andb_true_iff in Ht as [Hc Hh].
    cbn [distinct] in D1, D2. apply andb_true_iff in D1 as [_ D1], D2 as [_ D2].
    assert (N1 : new (l ++ [(k, Plain f)]) []) by (split; [rewrite map_app; now apply distinct_NoDup | reflexivity]).
    assert (N2 : new l []) by (split; [now apply distinct_NoDup | reflexivity]). assert (Hk : like [] []) by (intros ? w z E; discriminate).
    cbn [parse parse_alts]. inversion H as [| | | | | | | | | | | | |l1 m1 m2 k1 f1 d s' He|l1 m1 m2 k1 f1 d s' He| | | |]; subst.
    + destruct (IH1 (tail_app _ _ _ Hc Hf) b [] d s [] B He N1 Hk) as (d' & ->). cbn [bind]. eauto.
    + destruct (IM l k f eq_refl Hc Hh b [] d s [] B He N2 Hk) as (x & ->). cbn [bind].
      destruct (IH2 Hc b [] d s [] [] ltac:(now rewrite app_nil_r) He N2 Hk) as (d' & E). rewrite app_nil_r in E. rewrite E. cbn [bind]. eauto.
  - intros k o t cs l _ IH Ht Ho.
    assert (St : forall ctx m z f s, In (m, z, f) l -> exists c, accepts c f /\ parse (CStruct (FCons k (CAdapt (AEnum t) (CInt 1 false)) (FCons o (CSwitch k cs) FNil))) ctx (z :: s) =
       (let* q := parse c [(k, VEnum m z)] s in let (v, r') := (q : val * list Z) in Ok (VDict [(k, VEnum m z); (o, v)], r'))).
    { intros ctx m z f s Hi. destruct (tags_out _ _ _ _ _ _ Ht Hi) as (Hv & Hr & _). destruct (IH _ _ _ Hi) as (c & Hf & Hc). exists c. split; [exact Hc|].
      assert (Ek : forall ctx, parse (CAdapt (AEnum t) (CInt 1 false)) ctx (z :: s) = Ok (VEnum m z, s)).
      { intros ctx'. pose proof (int_read 1 false z s ltac:(lia) ltac:(rewrite (proj1 octet_range), (proj2 octet_range); lia) ctx') as E. rewrite octet_le in E by exact Hr. cbn [app] in E.
        rewrite parse_adapt, E. cbn [bind decode]. unfold enum_decode. cbn [as_int]. now rewrite Hv. }
      specialize (Ek []). cbn [parse] in Ek |- *. cbn [parse_fields]. cbn [parse]. rewrite Ek. cbn [bind dset]. unfold dgetr. cbn [dget]. rewrite String.eqb_refl. cbn [bind int_key as_int].
      rewrite (parse_case_of _ _ _ _ _ _ Hf). rewrite Ho. destruct (parse c [(k, VEnum m z)] s) as [[v r]| |]; reflexivity. }
    split.
    + intros Hc b ctx v s r B H. inversion H as [| | | | | | | | | | | | | | |k' o' l' m z f x s' Hi He| | |]; subst. destruct (St ctx m z f (s' ++ r) Hi) as (c & [Ha _] & E). cbn [app]. rewrite E.
      inversion B as [|? ? _ B']; subst. destruct (Ha (forallb_In _ _ _ Hc Hi) b [(k, VEnum m z)] x s' r B' He) as (v' & -> & _). cbn [bind]. eauto.
    + intros Hc b ctx v s B H. inversion H as [| | | | | | | | | | | | | | |k' o' l' m z f x s' Hi He| | |]; subst. destruct (St ctx m z f s' Hi) as (c & [_ Ha] & E). rewrite E.
      inversion B as [|? ? _ B']; subst. destruct (Ha (forallb_In _ _ _ Hc Hi) b [(k, VEnum m z)] x s' B' He) as (v' & -> & _). cbn [bind]. eauto.
  - intros k t sw cs l _ IH Ht.
    assert (St : forall ctx m z f s, In (m, z, f) l -> exists c, accepts c f /\ parse (CSwitchStruct k (CAdapt (AEnum t) (CInt 1 false)) t sw cs) ctx (z :: s) =
       (let* q := parse c [(k, VEnum m z)] s in let (v, r') := (q : val * list Z) in Ok (VDict (dset (lower m) v [(k, VEnum m z)]), r'))).
    { intros ctx m z f s Hi. destruct (tags_out _ _ _ _ _ _ Ht Hi) as (Hv & Hr & _). destruct (IH _ _ _ Hi) as (c & Hf & Hc). exists c. split; [exact Hc|].
      assert (Ek : forall ctx, parse (CAdapt (AEnum t) (CInt 1 false)) ctx (z :: s) = Ok (VEnum m z, s)).
      { intros ctx'. pose proof (int_read 1 false z s ltac:(lia) ltac:(rewrite (proj1 octet_range), (proj2 octet_range); lia) ctx') as E. rewrite octet_le in E by exact Hr. cbn [app] in E.
        rewrite parse_adapt, E. cbn [bind decode]. unfold enum_decode. cbn [as_int]. now rewrite Hv. }
      specialize (Ek []). cbn [parse] in Ek |- *. rewrite Ek. cbn [bind].
      rewrite (parse_case_of _ _ _ _ _ _ Hf). reflexivity. }
    split.
    + intros Hc b ctx v s r B H. inversion H as [| | | | | | | | | | | | | | | |k' l' m z f x s' Hi He| |]; subst. destruct (St ctx m z f (s' ++ r) Hi) as (c & [Ha _] & E). cbn [app]. rewrite E.
      inversion B as [|? ? _ B']; subst. destruct (Ha (forallb_In _ _ _ Hc Hi) b [(k, VEnum m z)] x s' r B' He) as (v' & -> & _). cbn [bind]. eauto.
    + intros Hc b ctx v s B H. inversion H as [| | | | | | | | | | | | | | | |k' l' m z f x s' Hi He| |]; subst. destruct (St ctx m z f s' Hi) as (c & [_ Ha] & E). rewrite E.
      inversion B as [|? ? _ B']; subst. destruct (Ha (forallb_In _ _ _ Hc Hi) b [(k, VEnum m z)] x s' B' He) as (v' & -> & _). cbn [bind]. eauto.
  - intros c P _ _ Ha _. apply closed_ends; [reflexivity|]. intros _ b ctx v s r B H. inversion H; subst. now apply Ha.
  - apply closed_ends; [reflexivity|]. intros _ b ctx v s r B H. inversion H; subst. cbn [parse app]. eauto.
  - intros L. split; [|split].
    + intros _ b e d s r obj B H _ _. inversion H; subst. cbn. eauto.
    + intros _ b e d s obj B H _ _. inversion H; subst. cbn. eauto.
    + intros [|] ? ? E; discriminate.
  - intros L k c f fs l Hc0 [IHc IHt] _ (IH1 & IH2 & IH3). split; [|split].
    + intros Hc b e d s r obj B H Hn Hk. cbn [closed_fields forallb snd] in Hc. apply andb_true_iff in Hc as [Hc Hl]. inversion H as [|? ? ? ? x d0 a s0 Hx Hr|]; subst. cbn [parse_fields]. rewrite <- app_assoc in B |- *.
      destruct (IHc Hc b obj x a (s0 ++ r) B Hx) as (x' & -> & Ex). cbn [bind]. destruct (new_next _ _ _ _ x Hn) as [Hke Hn']. apply Forall_app in B as [_ B].
      eapply IH1; eauto using like_next.
    + intros Ht b e d s obj B H Hn Hk. inversion H as [|? ? ? ? x d0 a s0 Hx Hr|]; subst. cbn [parse_fields]. destruct (new_next _ _ _ _ x Hn) as [Hke Hn'].
      destruct l as [|q l].
      * cbn [tail_fields] in Ht. inversion Hr; subst. rewrite app_nil_r in B |- *. destruct (IHt Ht b obj x a B Hx) as (x' & -> & Ex). cbn [bind].
        destruct (IH2 eq_refl b (e ++ [(k, x)]) [] [] (dset k x' obj) (Forall_nil _) Hr Hn' (like_next _ _ _ _ _ Hk Hke Ex)) as (d' & E). eauto.
      * assert (Hc : closed f = true /\ tail_fields (q :: l) = true) by (cbn [tail_fields] in Ht; now apply andb_true_iff in Ht). destruct Hc as [Hc Hl].
        destruct (IHc Hc b obj x a s0 B Hx) as (x' & -> & Ex). cbn [bind]. apply Forall_app in B as [_ B]. eapply IH2; eauto using like_next.
    + intros [|[k1 g1] l'] k0 g E Hc Hh b e d s obj B H Hn Hk.
      * cbn [app] in E. injection E as -> -> ->. inversion H; subst. cbn [parse_fields]. destruct (proj1 rejects_all _ _ Hc0 Hh obj) as (x & ->). cbn [bind]. eauto.
      * cbn [app] in E. injection E as <- <- E. cbn [closed_fields forallb snd] in Hc. apply andb_true_iff in Hc as [Hc Hl]. inversion H as [|? ? ? ? x d0 a s0 Hx Hr|]; subst. cbn [parse_fields].
        destruct (IHc Hc b obj x a s0 B Hx) as (x' & -> & Ex). cbn [bind]. destruct (new_next _ _ _ _ x Hn) as [Hke Hn']. apply Forall_app in B as [_ B]. eapply IH3; eauto using like_next.
  - intros L k k' n f fs l _ _ (IH1 & IH2 & IH3).
    assert (R : forall b obj x a r, enc b (FU n) x a -> exists x', parse (CInt n false) obj (a ++ r) = Ok (x', r) /\ as_int x' = as_int x).
    { intros b obj x a r H. inversion H; subst. cbn [parse]. rewrite take_le. cbn [bind]. eexists. split; [reflexivity|]. cbn [as_int]. unfold int_of. rewrite of_to_le, Z.mod_small by assumption. reflexivity. }
    split; [|split].
    + intros Hc b e d s r obj B H Hn Hk. cbn [closed_fields forallb snd] in Hc. apply andb_true_iff in Hc as [Hc Hl]. inversion H as [|? ? ? ? x d0 a s0 Hx Hr|]; subst. cbn [parse_fields]. rewrite <- app_assoc in B |- *.
      destruct (R b obj x a (s0 ++ r) Hx) as (x' & -> & Ex). cbn [bind]. destruct (new_next _ _ _ _ x Hn) as [Hke Hn']. apply Forall_app in B as [_ B].
      eapply IH1; eauto using like_next.
    + intros Ht b e d s obj B H Hn Hk. inversion H as [|? ? ? ? x d0 a s0 Hx Hr|]; subst. cbn [parse_fields]. destruct (new_next _ _ _ _ x Hn) as [Hke Hn'].
      destruct (R b obj x a s0 Hx) as (x' & -> & Ex). cbn [bind]. apply Forall_app in B as [_ B]. eapply IH2; eauto using like_next. destruct l; [reflexivity | exact Ht].
    + intros [|[k1 g1] l'] k0 g E Hc Hh b e d s obj B H Hn Hk.
      * cbn [app] in E. injection E as -> <- ->. inversion H; subst. cbn [parse_fields]. cbn [head] in Hh. apply Nat.ltb_lt in Hh. destruct n; [lia|]. cbn. eauto.
      * cbn [app] in E. injection E as <- <- E. cbn [closed_fields forallb snd] in Hc. apply andb_true_iff in Hc as [Hc Hl]. inversion H as [|? ? ? ? x d0 a s0 Hx Hr|]; subst. cbn [parse_fields].
        destruct (R b obj x a s0 Hx) as (x' & -> & Ex). cbn [bind]. destruct (new_next _ _ _ _ x Hn) as [Hke Hn']. apply Forall_app in B as [_ B]. eapply IH3; eauto using like_next.
  - intros L k kc c f fs l Hc0 [IHc _] _ (IH1 & IH2 & IH3).
    assert (R : closed f = true -> forall b e obj xs a r w, bytes (a ++ r) -> enc_list b f xs a -> dget kc e = Some w -> as_int w = Some (Z.of_nat (length xs)) -> like e obj ->
       exists x', parse (CArray (EGet kc) c) obj (a ++ r) = Ok (x', r) /\ as_int x' = as_int (VList xs)).
    { intros Hc b e obj xs a r w B H Hw Hz Hk. destruct (Hk _ _ _ Hw Hz) as (w' & Hw' & Hz'). cbn [parse eval]. unfold dgetr. rewrite Hw'. cbn [bind]. unfold as_intr. rewrite Hz'. cbn [bind].
      destruct (Z.ltb_spec (Z.of_nat (length xs)) 0); [lia|]. rewrite Nat2Z.id. destruct (list_read _ _ (IHc Hc) b obj _ _ _ B H) as (l' & -> & _). cbn [bind]. eauto. }
    split; [|split].
    + intros Hc b e d s r obj B H Hn Hk. cbn [closed_fields forallb snd] in Hc. apply andb_true_iff in Hc as [Hc Hl]. inversion H as [| |? ? ? ? ? xs d0 a s0 w Hx Hw Hz Hr]; subst. cbn [parse_fields]. rewrite <- app_assoc in B |- *.
      destruct (R Hc b e obj xs a (s0 ++ r) w B Hx Hw Hz Hk) as (x' & -> & Ex). cbn [bind]. destruct (new_next _ _ _ _ (VList xs) Hn) as [Hke Hn']. apply Forall_app in B as [_ B].
      eapply IH1; eauto using like_next.
    + intros Ht b e d s obj B H Hn Hk. inversion H as [| |? ? ? ? ? xs d0 a s0 w Hx Hw Hz Hr]; subst. cbn [parse_fields]. destruct (new_next _ _ _ _ (VList xs) Hn) as [Hke Hn'].
      cbn [tail_fields] in Ht. apply andb_true_iff in Ht as [Hc Hl].
      destruct (R Hc b e obj xs a s0 w B Hx Hw Hz Hk) as (x' & -> & Ex). cbn [bind]. apply Forall_app in B as [_ B]. eapply IH2; eauto using like_next.
    + intros [|[k1 g1] l'] k0 g E Hc Hh b e d s obj B H Hn Hk; [discriminate E|].
      cbn [app] in E. injection E as <- <- E. cbn [closed_fields forallb snd] in Hc. apply andb_true_iff in Hc as [Hc Hl]. inversion H as [| |? ? ? ? ? xs d0 a s0 w Hx Hw Hz Hr]; subst. cbn [parse_fields].
      destruct (R Hc b e obj xs a s0 w B Hx Hw Hz Hk) as (x' & -> & Ex). cbn [bind]. destruct (new_next _ _ _ _ (VList xs) Hn) as [Hke Hn']. apply Forall_app in B as [_ B]. eapply IH3; eauto using like_next.
  - intros m z f [].
  - intros n z c f cs l _ IH _ IHc Hz m z0 f0 Hi. cbn [find_case]. destruct Hi as [[= -> -> ->] | Hi]; [rewrite Z.eqb_refl; eauto|].
    destruct (Z.eqb_spec z0 z) as [->|]; [|eauto]. exfalso. rewrite <- not_true_iff_false in Hz. apply Hz. apply existsb_exists. exists (m, z, f0). split; [exact Hi | apply Z.eqb_refl].
Qed.

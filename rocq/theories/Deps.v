(** * Deps: which fields of the surrounding message a declaration looks at, and
    how many units a fixed-size declaration consumes. *)
From Verif Require Import PyVal Bits Utf8 Adapters Construct Size Master.

(** the [this.k] keys a declaration refers to (in the frame of the enclosing Struct) *)
Definition edeps (e : expr) : list string :=
  match e with EConst _ => [] | EGet k | ELen k | ELenVals k => [k] end.
Fixpoint deps (c : con) : list string :=
  match c with
  | CPaddedString e => edeps e
  | CArray e c1 => edeps e ++ deps c1
  | CPrefixedArray c1 | CGreedyRange c1 | CBitwise c1 | CBytewise c1 | CReversed _ c1 | CAdapt _ c1 | CNamed _ c1 => deps c1
  | CSelect l => depsa l
  | CSwitch k cs | CEnumSwitchStruct k cs => k :: depsk cs
  | CIfDefault k c1 _ => k :: deps c1
  | CProp hdr _ cs | CSensorSetting hdr _ cs => deps hdr ++ depsk cs
  | CSensorData _ cs => depsk cs
  | _ => []
  end
with depsk (cs : cases) : list string :=
  match cs with KNil => [] | KCons _ _ c cs' => deps c ++ depsk cs' end
with depsa (l : alts) : list string :=
  match l with ANil => [] | ACons c l' => deps c ++ depsa l' end.

Definition agree (ks : list string) (a b : dict) : Prop := forall k, In k ks -> dget k a = dget k b.

Lemma agree_app x y a b : agree (x ++ y) a b -> agree x a b /\ agree y a b.
Proof. intros H. split; intros k Hk; apply H, in_or_app; auto. Qed.
Lemma agree_cons k y a b : agree (k :: y) a b -> dget k a = dget k b /\ agree y a b.
Proof. intros H. split; [apply H; now left|]. intros k' Hk. apply H. now right. Qed.
Lemma agree_nil a b : agree [] a b. Proof. intros k []. Qed.
Lemma eval_agree e a b : agree (edeps e) a b -> eval e a = eval e b.
Proof.
  intros H. destruct e; cbn [eval edeps] in *; [reflexivity| | |];
    apply agree_cons in H as [H _]; unfold dgetr; rewrite H; reflexivity.
Qed.
Lemma dgetr_agree k a b : dget k a = dget k b -> dgetr k a = dgetr k b.
Proof. unfold dgetr. now intros ->. Qed.
Lemma times_ext p q n : (forall s, p s = q s) -> forall s, times_parse p n s = times_parse q n s.
Proof.
  intros H. induction n as [|n IH]; intros s; [reflexivity|]. cbn [times_parse]. rewrite H.
  destruct (q s) as [[v r]|e|]; cbn [bind]; [|reflexivity..]. now rewrite IH.
Qed.
Lemma greedy_ext p q n : (forall s, p s = q s) -> forall s, greedy p n s = greedy q n s.
Proof.
  intros H. induction n as [|n IH]; intros s; [reflexivity|]. cbn [greedy]. rewrite H.
  destruct (q s) as [[v r]|e|]; [|reflexivity..]. now rewrite IH.
Qed.
Lemma build_list_ext p q l : (forall s, p s = q s) -> build_list p l = build_list q l.
Proof. intros H. induction l as [|x l IH]; [reflexivity|]. cbn [build_list]. now rewrite H, IH. Qed.

Lemma bind_ext {A B} (r r' : res A) (f g : A -> res B) : r = r' -> (forall a, f a = g a) -> bind r f = bind r' g.
Proof. intros -> H. destruct r'; cbn [bind]; auto. Qed.

Lemma parse_agree_mut :
  (forall c a b s, agree (deps c) a b -> parse c a s = parse c b s) /\
  (forall fs : fields, True) /\
  (forall cs z a b s, agree (depsk cs) a b -> parse_case z cs a s = parse_case z cs b s) /\
  (forall l a b s, agree (depsa l) a b -> parse_alts l a s = parse_alts l b s).
Proof.
  apply con_mutind; try (intros; exact I); try (intros; reflexivity); cbn [deps depsk depsa].
  - intros e a b s H. cbn [parse]. now rewrite (eval_agree _ _ _ H).
  - intros c IH a b s H. cbn [parse]. destruct s as [|n s]; [reflexivity|]. erewrite times_ext; [reflexivity|]. intros; now apply IH.
  - intros e c IH a b s H. apply agree_app in H as [H1 H2]. cbn [parse]. rewrite (eval_agree _ _ _ H1).
    destruct (eval e b) as [n| |]; cbn [bind]; [|reflexivity..]. destruct (n <? 0); [reflexivity|].
    erewrite times_ext; [reflexivity|]. intros; now apply IH.
  - intros c IH a b s H. change (parse (CGreedyRange c) ?x s) with
      (let* q := greedy (parse c x) (S (length s)) s in let (l, r) := (q : list val * list Z) in Ok (VList l, r)).
    rewrite (greedy_ext (parse c a) (parse c b)); [reflexivity|]. intros; now apply IH.
  - intros c IH a b s H. cbn [parse]. now rewrite (IH a b).
  - intros c IH a b s H. cbn [parse]. destruct (bits2bytes s). now rewrite (IH a b).
  - intros n c IH a b s H. cbn [parse]. apply bind_ext; [reflexivity|]. intros [x r]. now rewrite (IH a b).
  - intros ad c IH a b s H. cbn [parse]. now rewrite (IH a b).
  - intros l IH a b s H. cbn [parse]. now apply IH.
  - intros n c IH a b s H. cbn [parse]. now rewrite (IH a b).
  - intros k cs IH a b s H. apply agree_cons in H as [H1 H2]. cbn [parse]. rewrite (dgetr_agree _ _ _ H1).
    apply bind_ext; [reflexivity|]. intros x. destruct (int_key x); [now apply IH|reflexivity].
  - intros k cs IH a b s H. apply agree_cons in H as [H1 H2]. cbn [parse]. rewrite (dgetr_agree _ _ _ H1).
    apply bind_ext; [reflexivity|]. intros x. destruct x; try reflexivity. now rewrite (IH z a b).
  - intros k c IH d a b s H. apply agree_cons in H as [H1 H2]. cbn [parse]. rewrite (dgetr_agree _ _ _ H1).
    apply bind_ext; [reflexivity|]. intros x. destruct (truthy x); [now apply IH|reflexivity].
  - intros hdr IH t cs IHk a b s H. apply agree_app in H as [H1 H2]. cbn [parse]. rewrite (IH a b) by exact H1.
    apply bind_ext; [reflexivity|]. intros [h r]. destruct h; try reflexivity. apply bind_ext; [reflexivity|]. intros x.
    apply bind_ext; [reflexivity|]. intros z. destruct (by_value t z) as [[]|]; try reflexivity.
    destruct (find_case _ cs); [|reflexivity]. now rewrite (IHk _ a b).
  - intros hdr IH t cs IHk a b s H. apply agree_app in H as [H1 H2]. cbn [parse]. rewrite (IH a b) by exact H1.
    apply bind_ext; [reflexivity|]. intros [h r]. destruct h; try reflexivity. apply bind_ext; [reflexivity|]. intros x.
    destruct (setting_id t x) as [idv nm]. apply bind_ext; [reflexivity|]. intros z. cbv zeta. destruct (find_case _ cs); [|reflexivity]. now rewrite (IHk _ a b).
  - intros t cs IHk a b s H. cbn [parse]. destruct s as [|b0 [|b1 s]]; try reflexivity.
    apply bind_ext; [reflexivity|]. intros [[[f l] p] s2]. destruct (setting_id t (VInt p)) as [idv nm]. cbv zeta.
    destruct (find_case p cs); [|reflexivity]. now rewrite (IHk _ a b).
  - intros n z c IH cs IHk w a b s H. apply agree_app in H as [H1 H2]. cbn [parse_case].
    destruct (w =? z); [now apply IH|now apply IHk].
  - intros c IH l IHl a b s H. apply agree_app in H as [H1 H2]. cbn [parse_alts]. rewrite (IH a b) by exact H1.
    destruct (parse c b s); try reflexivity. now apply IHl.
Qed.
Lemma parse_agree c a b s : agree (deps c) a b -> parse c a s = parse c b s.
Proof. apply (proj1 parse_agree_mut). Qed.

Lemma build_agree_mut :
  (forall c a b v, agree (deps c) a b -> build c a v = build c b v) /\
  (forall fs : fields, True) /\
  (forall cs z a b v, agree (depsk cs) a b -> build_case z cs a v = build_case z cs b v) /\
  (forall l a b v, agree (depsa l) a b -> build_alts l a v = build_alts l b v).
Proof.
  apply con_mutind; try (intros; exact I); try (intros; reflexivity); cbn [deps depsk depsa].
  - intros e a b s H. cbn [build]. now rewrite (eval_agree _ _ _ H).
  - intros c IH a b v H. cbn [build]. destruct (iter v) as [l|]; [|reflexivity].
    rewrite (build_list_ext (build c a) (build c b)); [reflexivity|]. intros; now apply IH.
  - intros e c IH a b v H. apply agree_app in H as [H1 H2]. cbn [build]. rewrite (eval_agree _ _ _ H1).
    apply bind_ext; [reflexivity|]. intros n. destruct (iter v) as [l|]; [|reflexivity].
    rewrite (build_list_ext (build c a) (build c b)); [reflexivity|]. intros; now apply IH.
  - intros c IH a b v H. cbn [build]. destruct (iter v) as [l|]; [|reflexivity].
    rewrite (build_list_ext (build c a) (build c b)); [reflexivity|]. intros; now apply IH.
  - intros c IH a b v H. cbn [build]. now rewrite (IH a b).
  - intros c IH a b v H. cbn [build]. now rewrite (IH a b).
  - intros n c IH a b v H. cbn [build]. now rewrite (IH a b).
  - intros ad c IH a b v H. cbn [build]. apply bind_ext; [reflexivity|]. intros; now apply IH.
  - intros l IH a b v H. cbn [build]. now apply IH.
  - intros n c IH a b v H. cbn [build]. destruct v; try reflexivity. destruct (dget n d); now apply IH.
  - intros k cs IH a b s H. apply agree_cons in H as [H1 H2]. cbn [build]. rewrite (dgetr_agree _ _ _ H1).
    apply bind_ext; [reflexivity|]. intros x. destruct (int_key x); [now apply IH|reflexivity].
  - intros k cs IH a b s H. apply agree_cons in H as [H1 H2]. cbn [build]. rewrite (dgetr_agree _ _ _ H1).
    apply bind_ext; [reflexivity|]. intros x. destruct (int_key x) as [z|]; [|reflexivity].
    destruct (find_case z cs) as [[n c]|]; [|reflexivity]. destruct s; try reflexivity. apply bind_ext; [reflexivity|]. intros; now apply IH.
  - intros k c IH d a b s H. apply agree_cons in H as [H1 H2]. cbn [build]. rewrite (dgetr_agree _ _ _ H1).
    apply bind_ext; [reflexivity|]. intros x. destruct (truthy x); [now apply IH|reflexivity].
  - intros hdr IH t cs IHk a b v H. apply agree_app in H as [H1 H2]. cbn [build]. rewrite (IH a b) by exact H1.
    apply bind_ext; [reflexivity|]. intros h. destruct v; try reflexivity. apply bind_ext; [reflexivity|]. intros x.
    destruct (int_key x) as [z|]; [|reflexivity]. destruct (by_value t z) as [[]|]; try reflexivity.
    destruct (find_case _ cs); [|reflexivity]. now rewrite (IHk _ a b).
  - intros hdr IH t cs IHk a b v H. apply agree_app in H as [H1 H2]. cbn [build]. rewrite (IH a b) by exact H1.
    apply bind_ext; [reflexivity|]. intros h. destruct v; try reflexivity. apply bind_ext; [reflexivity|]. intros x.
    destruct (setting_id t x) as [idv nm]. cbv zeta. destruct (int_key idv) as [z|]; [|reflexivity].
    destruct (find_case _ cs); [|reflexivity]. now rewrite (IHk _ a b).
  - intros t cs IHk a b v H. cbn [build]. destruct v; try reflexivity. do 5 (apply bind_ext; [reflexivity|]; intros ?).
    destruct (setting_id t a0) as [idv nm]. cbv zeta. destruct (find_case _ cs); [|reflexivity]. now rewrite (IHk _ a b).
  - intros n z c IH cs IHk w a b v H. apply agree_app in H as [H1 H2]. cbn [build_case].
    destruct (w =? z); [now apply IH|now apply IHk].
  - intros c IH l IHl a b v H. apply agree_app in H as [H1 H2]. cbn [build_alts]. rewrite (IH a b) by exact H1.
    destruct (build c b v); try reflexivity. now apply IHl.
Qed.
Lemma build_agree c a b v : agree (deps c) a b -> build c a v = build c b v.
Proof. apply (proj1 build_agree_mut). Qed.

(** ** A fixed-size declaration consumes exactly its size *)
Lemma times_fixed p m n : (forall s v r, p s = Ok (v, r) -> length s = (m + length r)%nat) ->
  forall s l r, times_parse p n s = Ok (l, r) -> length s = (n * m + length r)%nat.
Proof.
  intros H. induction n as [|n IH]; intros s l r E; cbn [times_parse] in E.
  - injection E as <- <-. reflexivity.
  - bind_inv E. bind_inv E. injection E as <- <-. apply H in E0. apply IH in E1. lia.
Qed.
Lemma parse_fixed_mut :
  (forall c n ctx s v r, fsz c = Some n -> parse c ctx s = Ok (v, r) -> length s = (n + length r)%nat) /\
  (forall fs n obj s d r, fszf fs = Some n -> parse_fields fs obj s = Ok (d, r) -> length s = (n + length r)%nat) /\
  (forall cs : cases, True) /\
  (forall l n ctx s v r, fsza l = Some n -> parse_alts l ctx s = Ok (v, r) -> length s = (n + length r)%nat).
Proof.
  apply con_mutind; try (intros; exact I); cbn [fsz fszf fsza]; try discriminate.
  1-3,5-6: intros; cbn [parse] in *; match goal with H : bind _ _ = _ |- _ => bind_inv H end;
    match goal with H : take _ _ = _ |- _ => apply take_ok in H as [-> ?] end; rewrite app_length; congruence.
  - intros n ctx s v r [= <-] H. cbn [parse] in H. destruct s; [discriminate|]. injection H as <- <-. reflexivity.
  - intros e n ctx s v r Hn H. destruct e; try discriminate Hn. injection Hn as <-. cbn [parse eval bind] in H.
    destruct (n0 <? 0); [discriminate|]. bind_inv H. destruct (utf8_decode _); [|discriminate]. injection H as <- <-.
    apply take_ok in E as [-> E]. rewrite app_length. lia.
  - intros e c IH n ctx s v r Hn H. destruct e; try discriminate Hn. destruct (fsz c) as [m|]; [|discriminate]. injection Hn as <-.
    cbn [parse eval bind] in H. destruct (n0 <? 0); [discriminate|]. bind_inv H. injection H as <- <-.
    eapply times_fixed in E; [exact E|]. intros; eapply IH; eauto.
  - intros fs IH n ctx s v r Hn H. cbn [parse] in H. bind_inv H. injection H as <- <-. eauto.
  - intros c IH n ctx s v r Hn H. destruct (fsz c) as [m|]; [|discriminate]. injection Hn as <-. cbn [parse] in H.
    bind_inv H. destruct (bits2bytes l) as [r' lo] eqn:Eb. destruct lo; [|discriminate]. injection H as <- <-.
    apply (IH m) in E; [|reflexivity]. rewrite bytes2bits_length in E. apply bits2bytes_length in Eb. simpl in Eb. unfold floor8.
    assert (m = (8 * (length s - length r'))%nat) as -> by lia. rewrite Nat.mul_comm, Nat.div_mul by lia. lia.
  - intros c IH n ctx s v r Hn H. destruct (fsz c) as [m|]; [|discriminate]. injection Hn as <-. cbn [parse] in H.
    destruct (bits2bytes s) as [bs lo] eqn:Eb. bind_inv H. injection H as <- <-. apply (IH m) in E; [|reflexivity].
    rewrite app_length, bytes2bits_length. apply bits2bytes_length in Eb. lia.
  - intros m c IH n ctx s v r Hn H. cbn [parse] in H. bind_inv H. bind_inv H. destruct l1; [|discriminate]. injection H as <- <-.
    apply take_ok in E as [-> E]. apply (IH n) in E0; [|exact Hn]. rewrite rev_length in E0. rewrite app_length. simpl in E0. lia.
  - intros a c IH n ctx s v r Hn H. cbn [parse] in H. bind_inv H. bind_inv H. injection H as <- <-. eauto.
  - intros l IH n ctx s v r Hn H. cbn [parse] in H. eauto.
  - intros nm c IH n ctx s v r Hn H. cbn [parse] in H. bind_inv H. destruct v0; try discriminate. injection H as <- <-. eauto.
  - intros n obj s d r [= <-] H. cbn [parse_fields] in H. injection H as <- <-. reflexivity.
  - intros k c IH fs IHf n obj s d r Hn H. apply oadd_some in Hn as (x & y & Hx & Hy & ->). cbn [parse_fields] in H. bind_inv H.
    eapply IH in E; [|exact Hx]. eapply IHf in H; [|exact Hy]. lia.
  - intros k c IH dv fs IHf n obj s d r Hn H. apply oadd_some in Hn as (x & y & Hx & Hy & ->). cbn [parse_fields] in H. bind_inv H.
    eapply IH in E; [|exact Hx]. eapply IHf in H; [|exact Hy]. lia.
  - intros k e c IH fs IHf n obj s d r Hn H. apply oadd_some in Hn as (x & y & Hx & Hy & ->). cbn [parse_fields] in H. bind_inv H.
    eapply IH in E; [|exact Hx]. eapply IHf in H; [|exact Hy]. lia.
  - intros k w fs IHf n obj s d r Hn H. apply oadd_some in Hn as (x & y & [= <-] & Hy & ->). cbn [parse_fields] in H. bind_inv H.
    apply take_ok in E as [-> E]. eapply IHf in H; [|exact Hy]. rewrite app_length. lia.
  - intros w bs IHb fs IHf n obj s d r Hn H. destruct (fszf bs) as [m|]; [|discriminate].
    apply oadd_some in Hn as (x & y & [= <-] & Hy & ->). cbn [parse_fields] in H. bind_inv H. bind_inv H. destruct l1; [|discriminate].
    apply take_ok in E as [-> E]. apply (IHb m) in E0; [|reflexivity]. rewrite bytes2bits_length, rev_length in E0. simpl in E0.
    eapply IHf in H; [|exact Hy]. rewrite app_length. unfold floor8. assert (m = (8 * length l)%nat) as -> by lia.
    rewrite Nat.mul_comm, Nat.div_mul by lia. lia.
  - intros c IH l IHl n ctx s v r Hn H. cbn [parse_alts] in H. destruct (parse c ctx s) as [[v0 r0]|e|] eqn:E; try discriminate.
    + injection H as <- <-. eapply IH; [|exact E]. destruct l; [exact Hn|]. destruct (fsz c), (fsza (ACons c0 l)); try discriminate.
      destruct (Nat.eqb n0 n1); congruence.
    + destruct l; [discriminate|]. eapply IHl; [|exact H]. destruct (fsz c), (fsza (ACons c0 l)); try discriminate.
      destruct (Nat.eqb_spec n0 n1); congruence.
Qed.
Lemma parse_fixed c n ctx s v r : fsz c = Some n -> parse c ctx s = Ok (v, r) -> length s = (n + length r)%nat.
Proof. apply (proj1 parse_fixed_mut). Qed.

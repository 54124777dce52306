(** * P_capnp: the generated Cap'n Proto schema (C53). *)
From Verif Require Import PyVal Names Capnp.
From Coq Require Import Lia.
Local Open Scope list_scope.
Local Open Scope nat_scope.

(** *** Specification *)
(** the numbers of the members of a struct, in the order of the text, those of nested unions included *)
Fixpoint ordinal_list (l : line) : list nat :=
  match l with
  | LField _ n _ => [n]
  | LUnion _ ms => flat_map ordinal_list ms
  end.
Definition ordinals (ls : list line) : list nat := flat_map ordinal_list ls.
Definition label (l : line) : option string := match l with LField k _ _ => k | LUnion k _ => k end.
(** the members of a struct have distinct names, and so have the members of each union in it *)
Inductive distinct : list line -> Prop :=
| dist ls : NoDup (map label ls) -> (forall k ms, In (LUnion k ms) ls -> distinct ms) -> distinct ls.

(** *** Numbers *)
Definition go_describe (f : nat) (h : list scope) := fix go (s : scope) (n : nat) : option (list line * nat) :=
         match s with
         | [] => Some ([], n)
         | (k, EType t) :: s' => match go s' (S n) with Some (l, n') => Some (LField k n t :: l, n') | None => None end
         | (k, EUnion r) :: s' =>
             match describe f h (hget r h) n with
             | Some (ms, n1) => match go s' n1 with Some (l, n2) => Some (LUnion k ms :: l, n2) | None => None end
             | None => None
             end
         end.
Lemma describe_S f h s n : describe (S f) h s n = go_describe f h s n. Proof. reflexivity. Qed.
Lemma describe_seq : forall fuel h s n l n', describe fuel h s n = Some (l, n') -> n <= n' /\ ordinals l = seq n (n' - n).
Proof.
  induction fuel as [|f IH]; intros h s n l n'; [discriminate|]. rewrite describe_S. revert n l n'.
  induction s as [|[k [t|r]] s IHs]; intros n l n'; cbn [go_describe].
  - intros E. injection E as <- <-. now rewrite Nat.sub_diag.
  - fold (go_describe f h). destruct (go_describe f h s (S n)) as [[l1 n1]|] eqn:E; [|discriminate]. intros E1. injection E1 as <- <-.
    apply IHs in E as [E1 E2]. split; [lia|]. change (ordinals (LField k n t :: l1)) with (n :: ordinals l1). rewrite E2. replace (n1 - n) with (S (n1 - S n)) by lia. reflexivity.
  - fold (go_describe f h). destruct (describe f h (hget r h) n) as [[ms n1]|] eqn:Ed; [|discriminate]. destruct (go_describe f h s n1) as [[l1 n2]|] eqn:E; [|discriminate].
    intros E1. injection E1 as <- <-. apply IH in Ed as [D1 D2]. apply IHs in E as [E1 E2]. split; [lia|].
    change (ordinals (LUnion k ms :: l1)) with (ordinals ms ++ ordinals l1). rewrite D2, E2. replace (n2 - n) with ((n1 - n) + (n2 - n1)) by lia.
    rewrite seq_app. f_equal. f_equal. lia.
Qed.
Lemma struct_text_in h r l : struct_text h r = Some l -> exists n, describe (S (S (length h))) h (hget r h) 0 = Some (l, n).
Proof. unfold struct_text. destruct (describe _ _ _ _) as [[l' n]|]; [|discriminate]. intros E. injection E as <-. eauto. Qed.
Theorem C53_ordinals : forall msgs sch name ls, generate msgs = Ok sch -> In (name, Some ls) sch -> ordinals ls = seq 0 (length (ordinals ls)).
Proof.
  intros msgs sch name ls E Hin. unfold generate in E. destruct (convert_all msgs visitor0) as [v| |]; try discriminate. cbn [bind] in E. injection E as <-.
  apply in_map_iff in Hin as ([n r] & E & _). injection E as _ E. apply struct_text_in in E as (k & E). apply describe_seq in E as [_ E].
  rewrite E, seq_length. reflexivity.
Qed.

(** *** The dictionaries of the visitor *)
Definition ordered (n : nat) (h : list scope) : Prop := forall c k r, c < n -> In (k, EUnion r) (hget c h) -> c < r < n.
Definition nodups (h : list scope) : Prop := forall c, NoDup (map fst (hget c h)).
Record inv (v : visitor) : Prop := {
  inv_order : ordered (length (heap v)) (heap v);
  inv_nodup : nodups (heap v);
  inv_stack : forall k r, In (k, r) (stack v) -> r < length (heap v);
  inv_structs : forall k r, In (k, r) (structs v) -> r < length (heap v);
  inv_types : forall k r, In (k, r) (types v) -> r < length (heap v) }.
Definition keeps_inv (f : visitor -> res visitor) : Prop := forall v v', inv v -> f v = Ok v' -> inv v' /\ length (heap v) <= length (heap v').

Lemma okey_eq a b : okey_eqb a b = true <-> a = b.
Proof. destruct a, b; cbn; try easy. rewrite String.eqb_eq. split; congruence. Qed.
Lemma sset_in k e s j x : In (j, x) (sset k e s) -> (j = k /\ x = e) \/ In (j, x) s.
Proof.
  induction s as [|[j' e'] s IH]; cbn [sset]; [intros [E | []]; injection E as <- <-; now left|]. destruct (okey_eqb k j') eqn:E.
  - apply okey_eq in E as ->. intros [E | H]; [injection E as <- <-; now left | right; now right].
  - intros [E1 | H]; [right; now left|]. destruct (IH H); [now left | right; now right].
Qed.
Lemma sset_keys k e s j : In j (map fst (sset k e s)) -> j = k \/ In j (map fst s).
Proof. intros H. apply in_map_iff in H as ([j' x] & <- & H). apply sset_in in H as [[-> _] | H]; [now left|]. right. apply in_map_iff. now exists (j', x). Qed.
Lemma sset_nodup k e s : NoDup (map fst s) -> NoDup (map fst (sset k e s)).
Proof.
  induction s as [|[j' e'] s IH]; cbn [sset]; intros H; [repeat constructor; easy|]. apply NoDup_cons_iff in H as [H1 H2]. destruct (okey_eqb k j') eqn:E.
  - now constructor.
  - cbn [map fst]. constructor; [|auto]. intros H. apply sset_keys in H as [-> | H]; [|easy]. assert (okey_eqb k k = true) by now apply okey_eq. congruence.
Qed.
Lemma hset_len r s h : length (hset r s h) = length h.
Proof. revert r. induction h as [|x h IH]; intros r; [destruct r; reflexivity|]. destruct r; cbn [hset length]; auto. Qed.
Lemma hget_hset r s h c : r < length h -> hget c (hset r s h) = if Nat.eqb c r then s else hget c h.
Proof.
  unfold hget. revert r c. induction h as [|x h IH]; intros r c H; [cbn in H; lia|]. destruct r, c; cbn [hset nth Nat.eqb]; try reflexivity. apply IH. cbn in H. lia.
Qed.
Lemma hget_app h l c : c < length h -> hget c (h ++ l) = hget c h.
Proof. intros H. unfold hget. now apply app_nth1. Qed.
Lemma hget_new h c : hget c (h ++ [[]]) = hget c h.
Proof. unfold hget. destruct (Nat.lt_ge_cases c (length h)); [now apply app_nth1|]. rewrite app_nth2 by lia. rewrite (nth_overflow h) by lia. destruct (c - length h) as [|[|]]; reflexivity. Qed.
Lemma nset_in k r l j x : In (j, x) (nset k r l) -> x = r \/ In (j, x) l.
Proof.
  induction l as [|[j' r'] l IH]; cbn [nset]; [intros [E | []]; injection E as <- <-; now left|]. destruct (String.eqb k j').
  - intros [E | H]; [injection E as <- <-; now left | right; now right].
  - intros [E | H]; [right; now left|]. destruct (IH H); [now left | right; now right].
Qed.
Lemma ndel_in k l j x : In (j, x) (ndel k l) -> In (j, x) l.
Proof. induction l as [|[j' r'] l IH]; cbn [ndel]; [easy|]. destruct (String.eqb k j'); [now right|]. intros [E | H]; [now left | right; auto]. Qed.
Lemma nget_in k l r : nget k l = Some r -> exists j, In (j, r) l.
Proof. induction l as [|[j' r'] l IH]; cbn [nget]; [discriminate|]. destruct (String.eqb k j'); [intros E; injection E as ->; eexists; now left|]. intros H. destruct (IH H) as (j & Hj). exists j. now right. Qed.
Lemma sget_in k s e : sget k s = Some e -> In (k, e) s.
Proof. induction s as [|[j x] s IH]; cbn [sget]; [discriminate|]. destruct (okey_eqb k j) eqn:E; [|right; auto]. apply okey_eq in E as ->. intros E. injection E as ->. now left. Qed.

Lemma put_inv k t : keeps_inv (put k (EType t)).
Proof.
  intros v v' [I1 I2 I3 I4 I5] E. unfold put in E. destruct (stack v) as [|[n r] st] eqn:Es; [discriminate|]. injection E as <-. cbn [heap structs types stack]. rewrite hset_len. split; [|lia].
  assert (Hr : r < length (heap v)) by (eapply I3; left; reflexivity).
  constructor; cbn [heap structs types stack]; rewrite ?hset_len; auto.
  - intros c j x Hc. rewrite hget_hset by exact Hr. destruct (Nat.eqb_spec c r) as [->|]; [|apply I1; exact Hc]. intros H. apply sset_in in H as [[_ ?] | H]; [discriminate|]. eapply I1; eauto.
  - intros c. rewrite hget_hset by exact Hr. destruct (Nat.eqb c r); [apply sset_nodup|]; apply I2.
Qed.
Lemma enter_struct_inv f n m : keeps_inv (enter_struct f n m).
Proof.
  intros v v' I E. unfold enter_struct in E. destruct (put _ _ v) as [v1| |] eqn:Ep; try discriminate. cbn [bind] in E. injection E as <-. apply put_inv in Ep as [[I1 I2 I3 I4 I5] L]; [|exact I].
  destruct (nget n (structs v1)) as [r|] eqn:En; cbn [heap].
  - split; [|lia]. constructor; cbn [heap structs types stack]; auto. intros k x [E | H]; [|eauto]. injection E as <- <-. apply nget_in in En as (j & Hj). eauto.
  - rewrite app_length. cbn [length]. split; [|lia]. constructor; cbn [heap structs types stack]; rewrite ?app_length; cbn [length].
    + intros c k r Hc. rewrite hget_new. intros H. destruct (Nat.lt_ge_cases c (length (heap v1))) as [Hl|Hl]; [destruct (I1 c k r Hl H); lia|].
      unfold hget in H. rewrite nth_overflow in H by lia. easy.
    + intros c. rewrite hget_new. apply I2.
    + intros k r [E | H]; [injection E as _ <-; lia | specialize (I3 _ _ H); lia].
    + intros k r H. apply nset_in in H as [-> | H]; [lia | specialize (I4 _ _ H); lia].
    + intros k r H. specialize (I5 _ _ H). lia.
Qed.
Lemma enter_union_inv f : keeps_inv (enter_union f).
Proof.
  intros v v' [I1 I2 I3 I4 I5] E. unfold enter_union in E. destruct (stack v) as [|[n c0] st] eqn:Es; [discriminate|].
  assert (Hc0 : c0 < length (heap v)) by (eapply I3; left; reflexivity).
  destruct (sget (ocamel f) (hget c0 (heap v))) as [[t|r]|] eqn:Eg; [discriminate| |]; injection E as <-; cbn [heap].
  - split; [|lia]. constructor; cbn [heap structs types stack]; auto. intros k x [E | H]; [|eauto]. injection E as <- <-. apply sget_in in Eg. destruct (I1 c0 _ _ Hc0 Eg). lia.
  - rewrite app_length, hset_len. cbn [length]. split; [|lia]. constructor; cbn [heap structs types stack]; rewrite ?app_length, ?hset_len; cbn [length].
    + intros c k r Hc. rewrite hget_new. intros H. destruct (Nat.lt_ge_cases c (length (heap v))) as [Hl|Hl].
      * rewrite hget_hset in H by exact Hc0. destruct (Nat.eqb_spec c c0) as [->|]; [|destruct (I1 c k r Hl H); lia].
        apply sset_in in H as [[_ E] | H]; [injection E as ->; lia | destruct (I1 c0 k r Hl H); lia].
      * unfold hget in H. rewrite nth_overflow in H by (rewrite hset_len; lia). easy.
    + intros c. rewrite hget_new, hget_hset by exact Hc0. destruct (Nat.eqb c c0); [apply sset_nodup|]; apply I2.
    + intros k r [E | H]; [injection E as _ <-; lia | specialize (I3 _ _ H); lia].
    + intros k r H. specialize (I4 _ _ H). lia.
    + intros k r H. specialize (I5 _ _ H). lia.
Qed.
Lemma exit_inv : keeps_inv exit.
Proof.
  intros v v' [I1 I2 I3 I4 I5] E. unfold exit in E. destruct (stack v) as [|[n r] st] eqn:Es; [discriminate|].
  assert (S : forall k x, In (k, x) st -> x < length (heap v)) by (intros; eapply I3; right; eassumption).
  assert (Hr : r < length (heap v)) by (eapply I3; left; reflexivity).
  destruct (Nat.eqb _ 3); [|injection E as <-; split; [constructor; cbn [heap structs types stack]; auto | cbn [heap]; lia]].
  destruct (has_union v); [injection E as <-; split; [constructor; cbn [heap structs types stack]; auto | cbn [heap]; lia]|].
  destruct n as [n|]; [|discriminate]. destruct (nget n (structs v)) as [r'|]; [|discriminate]. injection E as <-. split; [constructor; cbn [heap structs types stack]; auto | cbn [heap]; lia].
  - intros k x H. apply ndel_in in H. eauto.
  - intros k x H. apply nset_in in H as [-> | H]; eauto.
Qed.
Lemma keeps_bind f g : keeps_inv f -> keeps_inv g -> keeps_inv (fun v => let* v := f v in g v).
Proof.
  intros F G v v' I E. destruct (f v) as [v1| |] eqn:Ef; try discriminate. cbn [bind] in E. destruct (F _ _ I Ef) as [I1 L1]. destruct (G _ _ I1 E) as [I2 L2]. split; [exact I2 | lia].
Qed.
Lemma keeps_ok : keeps_inv (fun v => Ok v).
Proof. intros v v' I E. injection E as <-. split; [exact I | lia]. Qed.

(** induction over nested declarations *)
Section gcon_ind'.
  Variable P : gcon -> Prop.
  Hypothesis Hstruct : forall n l, Forall P l -> P (GStruct n l).
  Hypothesis Hswitch : forall n l d, Forall (fun p => P (snd p)) l -> (forall k x, d = Some (k, x) -> P x) -> P (GSwitch n l d).
  Hypothesis Hselect : forall n l, Forall P l -> P (GSelect n l).
  Hypothesis Hren : forall f x, P x -> P (GRenamed f x).
  Hypothesis Hif : forall x, P x -> P (GIf x).
  Hypothesis Htext : forall n, P (GText n).
  Hypothesis Hmany : forall x, P x -> P (GMany x).
  Hypothesis Hfoc : forall n x, P x -> P (GFocused n x).
  Hypothesis Hskip : P GSkip.
  Hypothesis Hwrap : forall n x, P x -> P (GWrap n x).
  Hypothesis Hleaf : forall n t, P (GLeaf n t).
  Fixpoint gcon_ind' (c : gcon) : P c :=
    match c with
    | GStruct n l => Hstruct n l ((fix go l : Forall P l := match l with [] => Forall_nil _ | x :: l' => Forall_cons _ (gcon_ind' x) (go l') end) l)
    | GSwitch n l d => Hswitch n l d ((fix go l : Forall (fun p => P (snd p)) l := match l with [] => Forall_nil _ | p :: l' => Forall_cons _ (gcon_ind' (snd p)) (go l') end) l)
        (match d as d' return (forall k x, d' = Some (k, x) -> P x) with
         | Some (k0, x0) => fun k x E => match E in _ = y return (match y with Some (_, z) => P z | None => True end) with eq_refl => gcon_ind' x0 end
         | None => fun k x E => match E in _ = y return (match y with Some (_, z) => P z | None => True end) with eq_refl => I end
         end)
    | GSelect n l => Hselect n l ((fix go l : Forall P l := match l with [] => Forall_nil _ | x :: l' => Forall_cons _ (gcon_ind' x) (go l') end) l)
    | GRenamed f x => Hren f x (gcon_ind' x)
    | GIf x => Hif x (gcon_ind' x)
    | GText n => Htext n
    | GMany x => Hmany x (gcon_ind' x)
    | GFocused n x => Hfoc n x (gcon_ind' x)
    | GSkip => Hskip
    | GWrap n x => Hwrap n x (gcon_ind' x)
    | GLeaf n t => Hleaf n t
    end.
End gcon_ind'.
Definition good_convert (c : gcon) : Prop := forall fname sname many m, keeps_inv (convert c fname sname many m).
Lemma opens fname name (many : bool) : keeps_inv (fun v => if many then let* v := enter_struct fname name many v in enter_union None v else enter_union fname v).
Proof. destruct many; [apply keeps_bind; [apply enter_struct_inv | apply enter_union_inv] | apply enter_union_inv]. Qed.
Lemma closes (many : bool) : keeps_inv (fun v => let* v := exit v in if many then exit v else Ok v).
Proof. apply keeps_bind; [apply exit_inv|]. destruct many; [apply exit_inv | apply keeps_ok]. Qed.
Lemma convert_inv c : good_convert c.
Proof.
  induction c using gcon_ind'; intros fname sname many m v v' I0 E.
  - cbn [convert] in E. destruct (starts_hidden fname); [now apply keeps_ok in E|]. revert v v' I0 E. apply keeps_bind; [apply enter_struct_inv|].
    apply keeps_bind; [|apply exit_inv]. induction H as [|x l Hx _ IH]; [apply keeps_ok|]. apply keeps_bind; [apply Hx | exact IH].
  - cbn [convert] in E. destruct (starts_hidden fname); [now apply keeps_ok in E|]. revert v v' I0 E. apply (keeps_bind _ _ (opens fname _ many)).
    refine (keeps_bind _ _ _ (keeps_bind _ _ _ (closes many))).
    + clear H0. induction H as [|[k x] l Hx _ IH]; [apply keeps_ok|]. apply (keeps_bind _ _ (Hx (Some k) None false m)). exact IH.
    + destruct d as [[k x]|]; [exact (H0 _ _ eq_refl (Some k) _ false m) | apply keeps_ok].
  - cbn [convert] in E. destruct (starts_hidden fname); [now apply keeps_ok in E|]. revert v v' I0 E. apply (keeps_bind _ _ (opens fname _ many)).
    refine (keeps_bind _ _ _ (closes many)). induction H as [|x l Hx _ IH]; [apply keeps_ok|]. apply keeps_bind; [apply Hx | exact IH].
  - cbn [convert] in E. destruct (starts_hidden fname); [now apply keeps_ok in E|]. eapply IHc; eassumption.
  - cbn [convert] in E. destruct (starts_hidden fname); [now apply keeps_ok in E|]. unfold field in E. eapply put_inv; eassumption.
  - cbn [convert] in E. destruct (starts_hidden fname); [now apply keeps_ok in E|]. unfold field in E. eapply put_inv; eassumption.
  - cbn [convert] in E. destruct (starts_hidden fname); [now apply keeps_ok in E|]. eapply IHc; eassumption.
  - cbn [convert] in E. destruct (starts_hidden fname); [now apply keeps_ok in E|]. eapply IHc; eassumption.
  - cbn [convert] in E. destruct (starts_hidden fname); now apply keeps_ok in E.
  - cbn [convert] in E. destruct (starts_hidden fname); [now apply keeps_ok in E|]. eapply IHc; eassumption.
  - cbn [convert] in E. destruct (starts_hidden fname); [now apply keeps_ok in E|]. unfold field in E. eapply put_inv; eassumption.
Qed.
Lemma inv0 : inv visitor0.
Proof.
  constructor; cbn [visitor0 heap structs types stack length].
  - intros c k r Hc. assert (c = 0) as -> by lia. easy.
  - intros [|[|c]]; constructor.
  - intros k r [E | []]. injection E as _ <-. lia.
  - intros k r [E | []]. injection E as _ <-. lia.
  - easy.
Qed.
Lemma convert_all_inv l : keeps_inv (convert_all l).
Proof. induction l as [|[[o m] c] l IH]; [apply keeps_ok|]. apply keeps_bind; [apply convert_inv | exact IH]. Qed.

(** *** After the messages are merged: [a] is AccessMessage, [S a] its union, the other cells are as before *)
Record minv (a : nat) (v : visitor) : Prop := {
  m_len : length (heap v) = S (S a);
  m_order : ordered a (heap v);
  m_nodup : nodups (heap v);
  m_a : hget a (heap v) = [(Some "opcode"%string, EType "UInt32"); (None, EUnion (S a))];
  m_u : forall k r, In (k, EUnion r) (hget (S a) (heap v)) -> r < a;
  m_structs : forall k r, In (k, r) (structs v) -> r <= a;
  m_types : forall k r, In (k, r) (types v) -> r < a }.
Lemma update_in new : forall old k e, In (k, e) (update new old) -> In (k, e) new \/ In (k, e) old.
Proof. induction new as [|[j x] new IH]; intros old k e; cbn [update]; [auto|]. intros H. apply IH in H as [H | H]; [left; now right|]. apply sset_in in H as [[-> ->] | H]; [left; now left | now right]. Qed.
Lemma update_nodup new : forall old, NoDup (map fst old) -> NoDup (map fst (update new old)).
Proof. induction new as [|[j x] new IH]; intros old H; cbn [update]; [exact H|]. now apply IH, sset_nodup. Qed.
Lemma merge_inv a l : forall v, minv a v -> minv a (merge_all l (S a) v).
Proof.
  induction l as [|[[o m] c] l IH]; intros v I; cbn [merge_all]; [exact I|]. apply IH. clear IH.
  assert (I' : minv a {| heap := heap v; types := types v; structs := ndel m (structs v); stack := stack v; has_union := has_union v |}).
  { destruct I as [I0 I1 I2 I3 I4 I5 I6]. constructor; cbn [heap structs types stack]; auto. intros k r H. apply ndel_in in H. eauto. }
  destruct (match nget m (structs v) with Some r => Some r | None => nget m (types v) end) as [r|] eqn:Er; [|exact I'].
  assert (Hr : r <= a).
  { destruct I as [_ _ _ _ _ I5 I6]. destruct (nget m (structs v)) as [r'|] eqn:E; [injection Er as ->; apply nget_in in E as (j & Hj); eauto|].
    apply nget_in in Er as (j & Hj). specialize (I6 _ _ Hj). lia. }
  cbn [heap] in *. destruct (sget None (hget r (heap v))) as [[t|s]|] eqn:Es; try exact I'. clear I'.
  destruct I as [I0 I1 I2 I3 I4 I5 I6]. assert (Hu : S a < length (heap v)) by lia. apply sget_in in Es.
  assert (Hs : forall k x, In (k, EUnion x) (hget s (heap v)) -> x < a).
  { destruct (Nat.eq_dec r a) as [->|Hn].
    - rewrite I3 in Es. destruct Es as [E | [E | []]]; [discriminate|]. injection E as <-. exact I4.
    - destruct (I1 r None s ltac:(lia) Es) as [_ Hs]. intros k x H. destruct (I1 s k x Hs H). lia. }
  constructor; cbn [heap structs types stack]; rewrite ?hset_len; auto.
  - intros c0 k x Hc. rewrite hget_hset by exact Hu. destruct (Nat.eqb_spec c0 (S a)); [lia | now apply I1].
  - intros c0. rewrite hget_hset by exact Hu. destruct (Nat.eqb c0 (S a)); [apply update_nodup|]; apply I2.
  - rewrite hget_hset by exact Hu. destruct (Nat.eqb_spec a (S a)); [lia | exact I3].
  - intros k x. rewrite hget_hset by exact Hu. rewrite Nat.eqb_refl. intros H. apply update_in in H as [H | H]; eauto.
  - intros k x H. apply ndel_in in H. eauto.
Qed.
Lemma merged_inv l v : inv v -> minv (length (heap v)) (merged l v).
Proof.
  intros [I1 I2 I3 I4 I5]. unfold merged. apply merge_inv. set (a := length (heap v)) in *.
  assert (A : forall l, hget a (heap v ++ l) = nth 0 l []) by (intros; unfold hget; rewrite app_nth2 by lia; now rewrite Nat.sub_diag).
  assert (U : forall x y, hget (S a) (heap v ++ [x; y]) = y) by (intros; unfold hget; rewrite app_nth2 by lia; replace (S a - length (heap v)) with 1 by lia; reflexivity).
  constructor; cbn [heap structs types stack].
  - rewrite app_length. cbn [length]. lia.
  - intros c k r Hc. rewrite hget_app by exact Hc. now apply I1.
  - intros c. destruct (Nat.lt_ge_cases c a) as [Hl|Hl]; [rewrite hget_app by exact Hl; apply I2|].
    destruct (Nat.eq_dec c a) as [->|]; [rewrite A; cbn; repeat constructor; cbn; intuition discriminate|].
    destruct (Nat.eq_dec c (S a)) as [->|]; [rewrite U; constructor|]. unfold hget. rewrite nth_overflow; [constructor|]. rewrite app_length. cbn [length]. lia.
  - rewrite A. reflexivity.
  - intros k r. rewrite U. easy.
  - intros k r H. apply nset_in in H as [-> | H]; [lia | specialize (I4 _ _ H); lia].
  - exact I5.
Qed.

(** *** Every struct is written *)
Lemma describe_some n h : ordered n h -> forall fuel s m b, (forall k r, In (k, EUnion r) s -> b <= r < n) -> n - b < fuel -> exists l m', describe fuel h s m = Some (l, m').
Proof.
  intros O. induction fuel as [|f IH]; intros s m b Hs Hf; [lia|]. rewrite describe_S. revert m. induction s as [|[k [t|r]] s IHs]; intros m; cbn [go_describe]; fold (go_describe f h).
  - eauto.
  - destruct (IHs (fun k r H => Hs k r (or_intror H)) (S m)) as (l & m' & ->). eauto.
  - destruct (Hs k r (or_introl eq_refl)) as [H1 H2].
    destruct (IH (hget r h) m (S r)) as (ms & m1 & ->).
    + intros k' r' H. destruct (O r k' r' H2 H). lia.
    + lia.
    + destruct (IHs (fun k r H => Hs k r (or_intror H)) m1) as (l & m' & ->). eauto.
Qed.
Lemma text_some a v r : minv a v -> r <= a -> exists ls, struct_text (heap v) r = Some ls.
Proof.
  intros [I0 I1 I2 I3 I4 I5 I6] Hr. unfold struct_text. assert (D : exists l m, describe (S (S (length (heap v)))) (heap v) (hget r (heap v)) 0 = Some (l, m)).
  { destruct (Nat.eq_dec r a) as [->|].
    - rewrite I3, describe_S. cbn [go_describe].
      destruct (describe_some a (heap v) I1 (S (length (heap v))) (hget (S a) (heap v)) 1 0) as (l & m & ->); [intros k r H; specialize (I4 _ _ H); lia | lia | eauto].
    - eapply (describe_some a _ I1 _ _ _ 0); [|lia]. intros k x H. destruct (I1 r k x ltac:(lia) H). lia. }
  destruct D as (l & m & ->). eauto.
Qed.
Theorem C53_complete : forall msgs sch name t, generate msgs = Ok sch -> In (name, t) sch -> exists ls, t = Some ls.
Proof.
  intros msgs sch name t E Hin. unfold generate in E. destruct (convert_all msgs visitor0) as [v| |] eqn:Ev; try discriminate. cbn [bind] in E. injection E as <-.
  apply convert_all_inv in Ev as [I _]; [|exact inv0]. pose proof (merged_inv msgs v I) as M. apply in_map_iff in Hin as ([n r] & E & Hin). cbn [fst snd] in E. injection E as <- <-.
  eapply text_some; [exact M|]. apply in_app_or in Hin as [Hin | Hin]; [apply (m_types _ _ M) in Hin; lia | apply (m_structs _ _ M) in Hin; lia].
Qed.

(** *** Names *)
Lemma describe_distinct : forall fuel h s n l n', nodups h -> NoDup (map fst s) -> describe fuel h s n = Some (l, n') -> map label l = map fst s /\ distinct l.
Proof.
  induction fuel as [|f IH]; intros h s n l n' Nh Ns; [discriminate|]. rewrite describe_S. intros E.
  assert (G : map label l = map fst s /\ forall k ms, In (LUnion k ms) l -> distinct ms).
  { clear Ns. revert n l n' E. induction s as [|[k [t|r]] s IHs]; intros n l n'; cbn [go_describe]; fold (go_describe f h).
    - intros E. injection E as <- <-. split; [reflexivity | easy].
    - destruct (go_describe f h s (S n)) as [[l1 n1]|] eqn:E; [|discriminate]. intros E1. injection E1 as <- <-. apply IHs in E as [A B]. split; [cbn; now rewrite A|].
      intros k' ms [E | H]; [discriminate | eauto].
    - destruct (describe f h (hget r h) n) as [[ms n1]|] eqn:Ed; [|discriminate]. destruct (go_describe f h s n1) as [[l1 n2]|] eqn:E; [|discriminate].
      intros E1. injection E1 as <- <-. apply IHs in E as [A B]. split; [cbn; now rewrite A|]. intros k' ms' [E | H]; [|eauto]. injection E as <- <-. eapply IH; [exact Nh | apply Nh | exact Ed]. }
  destruct G as [A B]. split; [exact A|]. constructor; [now rewrite A | exact B].
Qed.
Theorem C53_names : forall msgs sch name ls, generate msgs = Ok sch -> In (name, Some ls) sch -> distinct ls.
Proof.
  intros msgs sch name ls E Hin. unfold generate in E. destruct (convert_all msgs visitor0) as [v| |] eqn:Ev; try discriminate. cbn [bind] in E. injection E as <-.
  apply convert_all_inv in Ev as [I _]; [|exact inv0]. pose proof (merged_inv msgs v I) as M. apply in_map_iff in Hin as ([n r] & E & _). injection E as _ E.
  apply struct_text_in in E as (k & E). eapply describe_distinct; [apply (m_nodup _ _ M) | apply (m_nodup _ _ M) | exact E].
Qed.

(** *** A schema *)
Definition u8 : gcon := GLeaf (Some "Int8ul"%string) (Some "UInt8"%string).
(** SwitchStruct("opcode" / Opcode, "params" / Switch(..., {SET: Struct("on_off" / Int8ul, "tid" / Int8ul), GET: Struct()})) *)
Definition one_message : gcon :=
  GWrap (Some "OnOffMessage"%string)
    (GStruct None [GRenamed "opcode" (GWrap None (GLeaf None (Some "UInt32"%string)));
                   GSwitch None [("ON_OFF_SET"%string, GStruct (Some "OnOffSet"%string) [GRenamed "on_off" u8; GRenamed "_rfu" u8; GRenamed "tid" u8]);
                                 ("ON_OFF_GET"%string, GStruct (Some "OnOffGet"%string) [])] None]).
Example C53_case :
  generate [("OnOffOpcode"%string, "OnOffMessage"%string, one_message); ("OnOffSetupOpcode"%string, "OnOffMessage"%string, one_message)] =
  Ok [("AccessMessage"%string, Some [LField (Some "opcode"%string) 0 "UInt32";
                                     LUnion None [LField (Some "onOffSet"%string) 1 "OnOffSet"; LField (Some "onOffGet"%string) 2 "OnOffGet"]]);
      ("OnOffSet"%string, Some [LField (Some "onOff"%string) 0 "UInt8"; LField (Some "tid"%string) 1 "UInt8"]);
      ("OnOffGet"%string, Some [])].
Proof. vm_compute. reflexivity. Qed.

(** *** Where the schema is not sound.
    [C53_names] speaks of each union apart.  The members of a union without a name share the scope of the struct around
    it, and there two members can have the same name. *)
Fixpoint scope_names (l : line) : list (option string) :=
  match l with
  | LField k _ _ => [k]
  | LUnion (Some k) _ => [Some k]
  | LUnion None ms => flat_map scope_names ms
  end.
Theorem C53_unnamed_union_refuted : exists msgs sch name ls, generate msgs = Ok sch /\ In (name, Some ls) sch /\ ~ NoDup (flat_map scope_names ls).
Proof.
  exists [("O"%string, "M"%string, GStruct (Some "M"%string) [GRenamed "x" (GStruct (Some "S"%string) [GRenamed "kind" u8; GSwitch None [("KIND"%string, u8)] None])])].
  eexists. exists "S"%string. eexists. split; [vm_compute; reflexivity|]. split; [right; left; reflexivity|].
  intros H. vm_compute in H. inversion H as [|? ? N _]; subst. apply N. now left.
Qed.
(** a struct that is a direct member of one message and a nested member of another is written twice *)
Theorem C53_struct_twice_refuted : exists msgs sch, generate msgs = Ok sch /\ ~ NoDup (map fst sch).
Proof.
  exists [("O"%string, "M"%string, GStruct (Some "M"%string) [GRenamed "x" (GStruct (Some "S"%string) [GRenamed "a" u8]);
                                                 GRenamed "y" (GStruct (Some "T"%string) [GRenamed "s" (GStruct (Some "S"%string) [GRenamed "a" u8])])])].
  eexists. split; [vm_compute; reflexivity|]. intros H. vm_compute in H. inversion H as [|? ? N _]; subst. apply N. cbn. auto 6.
Qed.
(** two members whose names differ only in case or spacing become one *)
Theorem C53_member_lost_refuted : exists sch,
  generate [("O"%string, "M"%string, GStruct (Some "M"%string) [GRenamed "x" (GStruct (Some "S"%string) [GRenamed "on_off" u8; GRenamed "ON OFF" (GText None)])])] = Ok sch /\
  In ("S"%string, Some [LField (Some "onOff"%string) 0 "Text"]) sch.
Proof. eexists. split; [vm_compute; reflexivity | left; reflexivity]. Qed.

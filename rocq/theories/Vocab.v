(** * Vocab: which keys a decoded object can have.

    [voc N c] is computed from the declaration [c]: it lists every key (and every name given to an alternative)
    that an object decoded by [c] can have at any depth; [N] are the names of the enum members in the context. *)
From Verif Require Import PyVal Bits Adapters Construct.

Definition lows (t : enum) : list string := map (fun p => lower (fst p)) t.

(** the names of the enum members that can be the result itself *)
Fixpoint tops (c : con) : list string :=
  match c with
  | CAdapt (AEnum t) _ => lows t
  | CAdapt _ c1 | CBitwise c1 | CBytewise c1 | CReversed _ c1 => tops c1
  | CIfDefault _ c1 d => match d with VEnum n _ => [lower n] | _ => [] end ++ tops c1
  | CSelect l => tops_a l
  | CSwitch _ cs => tops_k cs
  | COpcode t => lows t
  | _ => []
  end
with tops_k (cs : cases) : list string :=
  match cs with KNil => [] | KCons _ _ c cs' => tops c ++ tops_k cs' end
with tops_a (l : alts) : list string :=
  match l with ANil => [] | ACons c l' => tops c ++ tops_a l' end.
Fixpoint tops_f (fs : fields) : list string :=
  match fs with
  | FNil => []
  | FCons _ c fs' | FDefault _ c _ fs' | FRebuild _ _ c fs' => tops c ++ tops_f fs'
  | FPad _ _ fs' | FStopIf _ fs' => tops_f fs'
  | FBits _ bs fs' => tops_f bs ++ tops_f fs'
  end.

(** a key that starts with an underscore is not listed (but "_name", which would confuse the conversion, is) *)
Definition key (k : string) : list string := if hidden k then (if String.eqb k "_name" then [k] else []) else [k].
Fixpoint voc (N : list string) (c : con) {struct c} : list string :=
  match c with
  | CPrefixedArray c1 | CArray _ c1 | CGreedyRange c1 | CBitwise c1 | CBytewise c1 | CReversed _ c1 => voc N c1
  | CIfDefault _ c1 d => match d with VDict _ | VList _ | VSet _ => ["_name"%string] | _ => [] end ++ voc N c1
  | CNamed n c1 => n :: voc N c1
  | CStruct fs => voc_f (tops_f fs) fs
  | CAdapt a c1 =>
      match a with
      | ATime => ["date"; "tai_utc_delta"; "time_authority"; "uncertainty"]%string
      | ATimestamp => ["date"; "tai_utc_delta"]%string
      | ARetransmit _ => ["count"; "interval"]%string
      | _ => []
      end ++ voc N c1
  | CSelect l => voc_a N l
  | CSwitch _ cs => voc_k N cs
  | CEnumSwitchStruct _ cs => N ++ voc_k N cs
  | CSwitchStruct k kc t sw cs => k :: tops kc ++ voc [] kc ++ voc_k (tops kc) cs
  | CProp h t cs => "property_id"%string :: lows t ++ voc N h ++ voc_k N cs
  | CSensorSetting h t cs => sid_name :: raw_name :: lows t ++ voc N h ++ voc_k N cs
  | CSensorData t cs => "format"%string :: "length"%string :: sid_name :: raw_name :: lows t ++ voc_k N cs
  | _ => []
  end
with voc_f (N : list string) (fs : fields) {struct fs} : list string :=
  match fs with
  | FNil => []
  | FCons k c fs' | FDefault k c _ fs' | FRebuild k _ c fs' => key k ++ voc N c ++ voc_f N fs'
  | FPad (Some k) _ fs' => key k ++ voc_f N fs'
  | FPad None _ fs' | FStopIf _ fs' => voc_f N fs'
  | FBits _ bs fs' => voc_f N bs ++ voc_f N fs'
  end
with voc_k (N : list string) (cs : cases) {struct cs} : list string :=
  match cs with KNil => [] | KCons _ _ c cs' => voc N c ++ voc_k N cs' end
with voc_a (N : list string) (l : alts) {struct l} : list string :=
  match l with ANil => [] | ACons c l' => voc N c ++ voc_a N l' end.

(** ** Objects whose keys satisfy [P] *)
Definition is_node (v : val) : bool := match v with VDict _ | VList _ | VSet _ => true | _ => false end.
Inductive tidy (P : string -> Prop) : val -> Prop :=
| tidy_leaf v : is_node v = false -> tidy P v
| tidy_list l : (forall x, In x l -> tidy P x) -> tidy P (VList l)
| tidy_set l : (forall x, In x l -> tidy P x) -> tidy P (VSet l)
| tidy_dict d : tidy_entries P d -> tidy P (VDict d)
with tidy_entries (P : string -> Prop) : dict -> Prop :=
| tidy_go d :
    NoDup (keys d) ->
    (forall k, In k (keys d) -> hidden k = true \/ P k) ->
    (forall k x, In (k, x) d -> tidy P x) ->
    (forall x, dget "_name" d = Some x -> exists n, x = VStr (cps n) /\ P n) ->
    tidy_entries P d.

Section Tidy.
Variable P : list string.
Hypothesis no_name : ~ In "_name"%string P.
Notation ok := (fun k => In k P).

Lemma In_dset k x d j y : In (j, y) (dset k x d) -> (j = k /\ y = x) \/ In (j, y) d.
Proof.
  induction d as [|[k' x'] d IH]; cbn [dset].
  - intros [E | []]. injection E as <- <-. now left.
  - destruct (String.eqb k k') eqn:E.
    + intros [E1 | H]; [injection E1 as <- <-; now left | right; now right].
    + intros [E1 | H]; [right; now left|]. destruct (IH H) as [?|?]; [now left | right; now right].
Qed.
Lemma keys_In_dset k x d j : In j (keys (dset k x d)) -> j = k \/ In j (keys d).
Proof.
  unfold keys. intros H. apply in_map_iff in H as ([j' y] & <- & H). apply In_dset in H as [[-> _] | H]; [now left|]. right. apply in_map_iff. now exists (j', y).
Qed.
Lemma NoDup_dset k x d : NoDup (keys d) -> NoDup (keys (dset k x d)).
Proof.
  induction d as [|[k' x'] d IH]; intros H; cbn [dset].
  - repeat constructor. easy.
  - apply NoDup_cons_iff in H as [H H']. destruct (String.eqb k k') eqn:E.
    + apply String.eqb_eq in E. subst k'. now constructor.
    + constructor; [|now apply IH]. change (~ In k' (keys (dset k x d))). intros H1. apply keys_In_dset in H1 as [-> | H1]; [|easy]. now rewrite String.eqb_refl in E.
Qed.
Lemma In_ddel k d j y : In (j, y) (ddel k d) -> In (j, y) d.
Proof.
  induction d as [|[k' x'] d IH]; cbn [ddel]; [easy|]. destruct (String.eqb k k'); [now right|]. intros [E | H]; [now left | right; auto].
Qed.
Lemma keys_In_ddel k d j : In j (keys (ddel k d)) -> In j (keys d).
Proof. unfold keys. intros H. apply in_map_iff in H as ([j' y] & <- & H). apply in_map_iff. exists (j', y). split; [easy|]. eapply In_ddel, H. Qed.
Lemma NoDup_ddel k d : NoDup (keys d) -> NoDup (keys (ddel k d)).
Proof.
  induction d as [|[k' x'] d IH]; intros H; cbn [ddel]; [easy|]. apply NoDup_cons_iff in H as [H H']. destruct (String.eqb k k'); [easy|].
  constructor; [|apply IH, H']. change (~ In k' (keys (ddel k d))). intros H1. apply keys_In_ddel in H1. easy.
Qed.
Lemma dget_ddel_other k j d : k <> j -> dget k (ddel j d) = dget k d.
Proof.
  intros H. induction d as [|[k' x'] d IH]; [reflexivity|]. cbn [ddel]. destruct (String.eqb j k') eqn:E.
  - apply String.eqb_eq in E as <-. cbn [dget]. destruct (String.eqb k j) eqn:E; [|easy]. now apply String.eqb_eq in E.
  - cbn [dget]. now rewrite IH.
Qed.
Lemma dget_In k x d : dget k d = Some x -> In (k, x) d.
Proof.
  induction d as [|[k' x'] d IH]; [discriminate|]. cbn [dget]. destruct (String.eqb k k') eqn:E; [|right; auto].
  apply String.eqb_eq in E as <-. intros H. injection H as ->. now left.
Qed.

Lemma te_nil : tidy_entries ok [].
Proof. constructor; [constructor | easy | easy | discriminate]. Qed.
Lemma te_dset k x d : tidy_entries ok d -> hidden k = true \/ In k P -> k <> "_name"%string -> tidy ok x -> tidy_entries ok (dset k x d).
Proof.
  intros [d' H1 H2 H3 H4] Hk Hn Hx. constructor.
  - now apply NoDup_dset.
  - intros j Hj. apply keys_In_dset in Hj as [-> | Hj]; auto.
  - intros j y Hj. apply In_dset in Hj as [[-> ->] | Hj]; eauto.
  - intros y. rewrite dget_dset_neq by congruence. apply H4.
Qed.
Lemma te_put k x d : tidy_entries ok d -> In k P -> tidy ok x -> tidy_entries ok (dset k x d).
Proof. intros H Hk Hx. apply te_dset; auto. now intros ->. Qed.
Lemma te_key k x d : tidy_entries ok d -> incl (key k) P -> tidy ok x -> tidy_entries ok (dset k x d).
Proof.
  intros H Hk Hx. unfold key in Hk. destruct (hidden k) eqn:E.
  - apply te_dset; auto. intros ->. apply no_name, Hk. now left.
  - apply te_put; auto. apply Hk. now left.
Qed.
Lemma te_name n d : tidy_entries ok d -> In n P -> tidy_entries ok (dset "_name" (VStr (cps n)) d).
Proof.
  intros [d' H1 H2 H3 H4] Hn. constructor.
  - now apply NoDup_dset.
  - intros j Hj. apply keys_In_dset in Hj as [-> | Hj]; auto.
  - intros j y Hj. apply In_dset in Hj as [[-> ->] | Hj]; [now constructor | eauto].
  - intros y. rewrite dget_dset_eq. intros E. injection E as <-. eauto.
Qed.
Lemma te_ddel k d : tidy_entries ok d -> k <> "_name"%string -> tidy_entries ok (ddel k d).
Proof.
  intros [d' H1 H2 H3 H4] Hk. constructor.
  - now apply NoDup_ddel.
  - intros j Hj. apply keys_In_ddel in Hj. auto.
  - intros j y Hj. apply In_ddel in Hj. eauto.
  - intros y. rewrite dget_ddel_other by congruence. apply H4.
Qed.
Lemma te_get k x d : tidy_entries ok d -> dget k d = Some x -> tidy ok x.
Proof. intros [d' _ _ H _] E. eapply H, dget_In, E. Qed.
Lemma tidy_entries_of d : tidy ok (VDict d) -> tidy_entries ok d.
Proof. intros H. inversion H; subst; [discriminate | easy]. Qed.
Lemma tidy_items l : tidy ok (VList l) -> forall x, In x l -> tidy ok x.
Proof. intros H. inversion H; subst; [discriminate | easy]. Qed.
Lemma dgetr_some k d x : dgetr k d = Ok x -> dget k d = Some x.
Proof. unfold dgetr. destruct (dget k d); congruence. Qed.

(** *** Repetition *)
Lemma times_each (Q : val -> Prop) p : (forall s v r, p s = Ok (v, r) -> Q v) ->
  forall n s l r, times_parse p n s = Ok (l, r) -> forall x, In x l -> Q x.
Proof.
  intros H. induction n as [|n IH]; cbn [times_parse]; intros s l r E; [injection E as <- <-; easy|].
  destruct (p s) as [[v r1]| |] eqn:Ep; try discriminate. cbn [bind] in E.
  destruct (times_parse p n r1) as [[l1 r2]| |] eqn:El; try discriminate. cbn [bind] in E. injection E as <- <-.
  intros x [<- | Hx]; eauto.
Qed.
Lemma greedy_each (Q : val -> Prop) p : (forall s v r, p s = Ok (v, r) -> Q v) ->
  forall n s l r, greedy p n s = Ok (l, r) -> forall x, In x l -> Q x.
Proof.
  intros H. induction n as [|n IH]; cbn [greedy]; intros s l r E; [discriminate|].
  destruct (p s) as [[v r1]| |] eqn:Ep; try discriminate.
  2:{ injection E as <- <-. easy. }
  destruct (Nat.ltb (length r1) (length s)); [|discriminate].
  destruct (greedy p n r1) as [[l1 r2]| |] eqn:El; try discriminate. cbn [bind] in E. injection E as <- <-.
  intros x [<- | Hx]; eauto.
Qed.

(** *** Adapters *)
Definition not_enum (v : val) : Prop := match v with VEnum _ _ => False | _ => True end.
Lemma tidy_ints l : tidy ok (VList (map VInt l)).
Proof. apply tidy_list. intros x H. apply in_map_iff in H as (z & <- & _). now constructor. Qed.
Lemma by_value_lows t z v : by_value t z = Some v -> exists n w, v = VEnum n w /\ In (lower n) (lows t).
Proof.
  induction t as [|[n w] t IH]; cbn [by_value]; [discriminate|]. destruct (z =? w).
  - intros E. injection E as <-. exists n, w. split; [easy|]. now left.
  - intros E. destruct (IH E) as (n' & w' & -> & H). exists n', w'. split; [easy|]. now right.
Qed.
Lemma isort_in l x : In x (isort l) -> In x l.
Proof.
  assert (I : forall l y x, In x (insert_by y l) -> x = y \/ In x l).
  { clear. induction l as [|a l IH]; cbn [insert_by]; intros y x.
    - intros [-> | []]. now left.
    - destruct (_ <=? _); [intros [-> | H]; [now left | now right]|]. intros [-> | H]; [right; now left|]. destruct (IH _ _ H); [now left | right; now right]. }
  induction l as [|a l IH]; cbn [isort]; [easy|]. intros H. apply I in H as [-> | H]; [now left | right; auto].
Qed.
Lemma dedup_in l x : In x (dedup l) -> In x l.
Proof. induction l as [|a l IH]; cbn [dedup]; [easy|]. intros [-> | H]; [now left|]. apply filter_In in H as [H _]. right. auto. Qed.
Lemma set_bits_in l : forall i x, In x (set_bits i l) -> is_node x = false.
Proof. induction l as [|a l IH]; cbn [set_bits]; intros i x; [easy|]. destruct (truthy a); [intros [<- | H]; [easy|]|intros H]; eauto. Qed.
Lemma flatten_in l : (forall x, In x l -> tidy ok x) -> forall r, flatten_items l = Ok r -> forall x, In x r -> tidy ok x.
Proof.
  induction l as [|a l IH]; intros Hl r; cbn [flatten_items]; [intros E; injection E as <-; easy|].
  assert (Ha := Hl a (or_introl eq_refl)). destruct a; try discriminate. apply tidy_entries_of in Ha.
  destruct (flatten_items l) as [r1| |]; try discriminate. cbn [bind]. specialize (IH (fun x H => Hl x (or_intror H)) r1 eq_refl).
  destruct (dget "last" d) as [v|] eqn:E.
  - intros E1. injection E1 as <-. intros x [<- | H]; [eapply te_get; eassumption | auto].
  - destruct (dgetr "first" d) as [f| |] eqn:Ef; try discriminate. destruct (dgetr "second" d) as [g| |] eqn:Eg; try discriminate. cbn [bind].
    intros E1. injection E1 as <-. apply dgetr_some in Ef, Eg. intros x [<- | [<- | H]]; [eapply te_get; eassumption | eapply te_get; eassumption | auto].
Qed.
Ltac step E := match type of E with
  | Err _ = _ => discriminate E
  | Ok _ = _ => injection E as E; try (rewrite <- E in * )
  | bind ?r _ = _ => let x := fresh "x" in destruct r as [x| |] eqn:?; cbn [bind] in E; [|discriminate E|discriminate E]
  | (match ?r with _ => _ end) = _ => destruct r eqn:?; try discriminate E
  | (if ?b then _ else _) = _ => destruct b; try discriminate E
  end.
Definition akeys (a : adapter) : list string :=
  match a with
  | ATime => ["date"; "tai_utc_delta"; "time_authority"; "uncertainty"]%string
  | ATimestamp => ["date"; "tai_utc_delta"]%string
  | ARetransmit _ => ["count"; "interval"]%string
  | _ => []
  end.
Lemma te_dsets l : (forall k x, In (k, x) l -> In k P /\ tidy ok x) -> tidy_entries ok (fold_left (fun d p => dset (fst p) (snd p) d) l []).
Proof.
  assert (G : forall l d, tidy_entries ok d -> (forall k x, In (k, x) l -> In k P /\ tidy ok x) -> tidy_entries ok (fold_left (fun d p => dset (fst p) (snd p) d) l d)).
  { clear l. induction l as [|[k x] l IH]; cbn [fold_left]; intros d Hd H; [easy|]. destruct (H k x (or_introl eq_refl)). apply IH; [now apply te_put|]. intros j y Hj. apply H. now right. }
  intros H. apply G; [apply te_nil | exact H].
Qed.
Lemma decode_tidy a w v : incl (akeys a) P -> tidy ok w -> decode a w = Ok v -> tidy ok v.
Proof.
  intros Ha Hw E. assert (V : forall p v', validate p w = Ok v' -> tidy ok v').
  { unfold validate. intros p v'. destruct (as_int w); [|discriminate]. destruct (p z); [|discriminate]. congruence. }
  assert (L : forall v', is_node v' = false -> tidy ok v') by (intros; now constructor).
  destruct a; cbn [decode] in E; try (now eapply V, E).
  - unfold enum_decode in E. repeat step E. destruct (by_value_lows _ _ _ Heqo0) as (? & ? & -> & _). now apply L.
  - unfold log_decode in E. repeat step E; now apply L.
  - repeat step E. unfold count_decode. destruct (_ && _); [now apply L|]. destruct r; now apply L.
  - unfold transition_decode in E. repeat step E. unfold times. match goal with |- context [match ?r with _ => _ end] => destruct r end; now apply L.
  - unfold delay_decode in E. repeat step E; now apply L.
  - unfold retransmit_decode in E. destruct w; try discriminate. repeat step E. apply tidy_dict.
    refine (te_dsets [("count"%string, x); ("interval"%string, _)] _).
    intros k y [E' | [E' | []]]; injection E' as <- <-; (split; [apply Ha; cbn; auto|]); [|now constructor].
    apply dgetr_some in Heqr. eapply te_get; [eapply tidy_entries_of, Hw | exact Heqr].
  - unfold key_indices_decode in E. destruct w; try discriminate. repeat step E. apply tidy_list. intros y H. apply isort_in in H. eapply flatten_in; [eapply tidy_items, Hw | eassumption | exact H].
  - unfold bitlist_decode in E. destruct w; try discriminate. repeat step E. apply tidy_set. intros y H. apply set_bits_in in H. now constructor.
  - unfold set_decode in E. destruct w; try discriminate. repeat step E. apply tidy_set. intros y H. apply dedup_in in H. eapply tidy_items; eassumption.
  - unfold mac_decode in E. destruct w; try discriminate. repeat step E. now apply L.
  - unfold ip_decode in E. destruct w; try discriminate. repeat step E. now apply L.
  - unfold date_decode in E. repeat step E. now apply L.
  - unfold exp8_decode in E. repeat step E; now apply L.
  - congruence.
  - unfold time_decode in E. destruct w; try discriminate. repeat step E; apply tidy_dict.
    + refine (te_dsets [("date"%string, VNone); ("tai_utc_delta"%string, VNone); ("time_authority"%string, VNone); ("uncertainty"%string, VNone)] _).
      intros k y [E' | [E' | [E' | [E' | []]]]]; injection E' as <- <-; (split; [apply Ha; cbn; auto|now constructor]).
    + refine (te_dsets [("date"%string, _); ("tai_utc_delta"%string, _); ("time_authority"%string, _); ("uncertainty"%string, _)] _).
      intros k y [E' | [E' | [E' | [E' | []]]]]; injection E' as <- <-; (split; [apply Ha; cbn; auto|now constructor]).
  - unfold timestamp_decode in E. destruct w; try discriminate. repeat step E; apply tidy_dict.
    refine (te_dsets [("date"%string, _); ("tai_utc_delta"%string, _)] _).
    intros k y [E' | [E' | []]]; injection E' as <- <-; (split; [apply Ha; cbn; auto|now constructor]).
Qed.
Lemma decode_top a w n z : decode a w = Ok (VEnum n z) -> (exists t, a = AEnum t /\ In (lower n) (lows t)) \/ (w = VEnum n z /\ forall t, a <> AEnum t).
Proof.
  intros E. assert (V : forall p v', validate p w = Ok v' -> w = v').
  { unfold validate. intros p v'. destruct (as_int w); [|discriminate]. destruct (p z0); [|discriminate]. congruence. }
  destruct a; cbn [decode] in E; try (right; split; [now eapply V, E | discriminate]).
  - left. unfold enum_decode in E. repeat step E. destruct (by_value_lows _ _ _ Heqo0) as (? & ? & Ev & H). subst v. injection Ev as -> ->. eauto.
  - unfold log_decode in E. repeat step E; try discriminate.
  - repeat step E. unfold count_decode in E. destruct (_ && _); [discriminate|]. destruct r; discriminate.
  - unfold transition_decode in E. repeat step E. unfold times in E. match type of E with context [match ?r with _ => _ end] => destruct r end; discriminate.
  - unfold delay_decode in E. repeat step E; try discriminate.
  - unfold retransmit_decode in E. repeat step E; try discriminate.
  - unfold key_indices_decode in E. repeat step E; try discriminate.
  - unfold bitlist_decode in E. repeat step E; try discriminate.
  - unfold set_decode in E. repeat step E; try discriminate.
  - unfold mac_decode in E. repeat step E; try discriminate.
  - unfold ip_decode in E. repeat step E; try discriminate.
  - unfold date_decode in E. repeat step E; try discriminate.
  - unfold exp8_decode in E. repeat step E; try discriminate.
  - right. split; [congruence | discriminate].
  - unfold time_decode in E. repeat step E; try discriminate.
  - unfold timestamp_decode in E. repeat step E; try discriminate.
Qed.
(** *** Everything *)
Definition enums (N : list string) (ctx : dict) : Prop := forall k n z, dget k ctx = Some (VEnum n z) -> In (lower n) N.
Lemma enums_nil N : enums N []. Proof. discriminate. Qed.
Lemma enums_dset N k x d : enums N d -> (forall n z, x = VEnum n z -> In (lower n) N) -> enums N (dset k x d).
Proof.
  intros H Hx j n z. destruct (String.eqb j k) eqn:E.
  - apply String.eqb_eq in E as ->. rewrite dget_dset_eq. intros E. injection E as ->. eauto.
  - rewrite dget_dset_neq; [apply H | now apply String.eqb_neq].
Qed.
Definition good_con (c : con) : Prop := forall N ctx s v r, incl (voc N c) P -> enums N ctx -> parse c ctx s = Ok (v, r) ->
  tidy ok v /\ (forall n z, v = VEnum n z -> In (lower n) (tops c)).
Definition good_fields (fs : fields) : Prop := forall N obj s d r, incl (voc_f N fs) P -> incl (tops_f fs) N -> tidy_entries ok obj -> enums N obj ->
  parse_fields fs obj s = Ok (d, r) -> tidy_entries ok d /\ enums N d.
Definition good_cases (cs : cases) : Prop := forall N z ctx s v r, incl (voc_k N cs) P -> enums N ctx -> parse_case z cs ctx s = Ok (v, r) ->
  tidy ok v /\ (forall n z, v = VEnum n z -> In (lower n) (tops_k cs)).
Definition good_alts (l : alts) : Prop := forall N ctx s v r, incl (voc_a N l) P -> enums N ctx -> parse_alts l ctx s = Ok (v, r) ->
  tidy ok v /\ (forall n z, v = VEnum n z -> In (lower n) (tops_a l)).

Lemma incl_app_l (A : Type) (a b c : list A) : incl (a ++ b) c -> incl a c.
Proof. intros H x Hx. apply H, in_or_app. now left. Qed.
Lemma incl_app_r (A : Type) (a b c : list A) : incl (a ++ b) c -> incl b c.
Proof. intros H x Hx. apply H, in_or_app. now right. Qed.
Lemma incl_hd (A : Type) (a : A) l c : incl (a :: l) c -> In a c.
Proof. intros H. apply H. now left. Qed.
Lemma incl_tl' (A : Type) (a : A) l c : incl (a :: l) c -> incl l c.
Proof. intros H x Hx. apply H. now right. Qed.
Lemma copy_tidy N bs : forall bd obj, incl (voc_f N bs) P -> tidy_entries ok bd -> enums N bd -> tidy_entries ok obj -> enums N obj ->
  tidy_entries ok (copy_named bs bd obj) /\ enums N (copy_named bs bd obj).
Proof.
  assert (S1 : forall k bd obj, incl (key k) P -> tidy_entries ok bd -> enums N bd -> tidy_entries ok obj -> enums N obj ->
    tidy_entries ok (match dget k bd with Some v => dset k v obj | None => obj end) /\ enums N (match dget k bd with Some v => dset k v obj | None => obj end)).
  { intros k bd obj Hk H1 H2 H3 H4. destruct (dget k bd) as [x|] eqn:E; [|auto]. split; [apply te_key; auto; eapply te_get; [exact H1 | exact E]|].
    apply enums_dset; [auto|]. intros n z ->. eapply H2, E. }
  induction bs; intros bd obj Hi H1 H2 H3 H4; cbn [copy_named voc_f] in *; auto.
  1-3: destruct (S1 k bd obj (incl_app_l _ _ _ _ Hi) H1 H2 H3 H4) as [A B]; apply IHbs; auto; eapply incl_app_r, incl_app_r, Hi.
  - destruct k as [k|]; [|auto]. destruct (S1 k bd obj (incl_app_l _ _ _ _ Hi) H1 H2 H3 H4) as [A B]. apply IHbs; auto. eapply incl_app_r, Hi.
  - apply IHbs2; auto. eapply incl_app_r, Hi.
Qed.
Ltac leafs := split; [now constructor | discriminate].
Ltac brk E := repeat (match type of E with
  | Err _ = _ => discriminate E
  | Ok _ = Ok _ => injection E as <- <-
  | bind ?r _ = _ => let x := fresh "x" in destruct r as [x| |] eqn:?; cbn [bind] in E; [|discriminate E|discriminate E]
  | (let (_, _) := ?r in _) = _ => destruct r
  | (match ?r with _ => _ end) = _ => destruct r eqn:?; try discriminate E
  | (if ?b then _ else _) = _ => destruct b eqn:?; try discriminate E
  end).
Lemma lows_in t z n w : by_value t z = Some (VEnum n w) -> In (lower n) (lows t).
Proof. intros H. destruct (by_value_lows _ _ _ H) as (n' & w' & E & Hin). now injection E as -> ->. Qed.
Lemma setting_id_ok t v idv name : incl (sid_name :: raw_name :: lows t) P -> tidy ok v -> setting_id t v = (idv, name) -> tidy ok idv /\ In name P.
Proof.
  intros Hi Hv. unfold setting_id. assert (R : (v, raw_name) = (idv, name) -> tidy ok idv /\ In name P).
  { intros E. injection E as <- <-. split; [easy|]. apply Hi. right. now left. }
  destruct (int_key v); [|exact R]. destruct (by_value t z) eqn:E; [|exact R]. destruct (by_value_lows _ _ _ E) as (n & w & -> & Hn).
  intros E1. injection E1 as <- <-. split; [now constructor|]. apply Hi. right. now right.
Qed.
Theorem parse_tidy : (forall c, good_con c) /\ (forall fs, good_fields fs) /\ (forall cs, good_cases cs) /\ (forall l, good_alts l).
Proof.
  apply con_mutind; unfold good_con, good_fields, good_cases, good_alts.
  1-11: intros; match goal with H : parse _ _ _ = _ |- _ => rename H into E end; cbn [parse] in E; brk E; leafs.
  - (* CPrefixedArray *) intros c IH N ctx s v r Hi He E. cbn [parse] in E. brk E. split; [|discriminate]. apply tidy_list.
    eapply times_each; [|eassumption]. intros. eapply IH; eassumption.
  - (* CArray *) intros e c IH N ctx s v r Hi He E. cbn [parse] in E. brk E. split; [|discriminate]. apply tidy_list.
    eapply times_each; [|eassumption]. intros. eapply IH; eassumption.
  - (* CGreedyRange *) intros c IH N ctx s v r Hi He E. cbn [parse] in E. brk E. split; [|discriminate]. apply tidy_list.
    eapply greedy_each; [|eassumption]. intros. eapply IH; eassumption.
  - (* CStruct *) intros fs IH N ctx s v r Hi He E. cbn [parse] in E. brk E. split; [|discriminate]. apply tidy_dict.
    eapply (IH (tops_f fs)); [exact Hi | apply incl_refl | apply te_nil | apply enums_nil | eassumption].
  - (* CBitwise *) intros c IH N ctx s v r Hi He E. cbn [parse] in E. brk E. eapply IH; eassumption.
  - (* CBytewise *) intros c IH N ctx s v r Hi He E. cbn [parse] in E. brk E. eapply IH; eassumption.
  - (* CReversed *) intros n c IH N ctx s v r Hi He E. cbn [parse] in E. brk E. eapply IH; eassumption.
  - (* CAdapt *) intros a c IH N ctx s v r Hi He E. cbn [parse] in E. brk E. change (incl (akeys a ++ voc N c) P) in Hi.
    destruct (IH N ctx s v0 l) as [A B]; [eapply incl_app_r, Hi | exact He | assumption|].
    split; [eapply decode_tidy; [eapply incl_app_l, Hi | exact A | eassumption]|].
    intros n z ->. match goal with H : decode a _ = _ |- _ => apply decode_top in H as [(t & -> & Ht) | [-> Ha]] end; [exact Ht|].
    destruct a; try (eapply B; reflexivity). now destruct (Ha t).
  - (* CSelect *) intros l IH N ctx s v r Hi He E. cbn [parse] in E. eapply IH; eassumption.
  - (* CNamed *) intros n c IH N ctx s v r Hi He E. cbn [parse] in E. brk E. split; [|discriminate]. apply tidy_dict, te_name; [|eapply incl_hd, Hi].
    eapply tidy_entries_of, IH; [eapply incl_tl', Hi | exact He | eassumption].
  - (* CSwitch *) intros k cs IH N ctx s v r Hi He E. cbn [parse] in E. brk E; [|leafs]. eapply IH; eassumption.
  - (* CEnumSwitchStruct *) intros k cs IH N ctx s v r Hi He E. cbn [parse] in E. brk E. split; [|discriminate]. apply tidy_dict.
    refine (te_dsets [(lower name, v0)] _). intros j y [E' | []]. injection E' as <- <-. apply dgetr_some in Heqr0. split; [eapply incl_app_l; [exact Hi | eapply He; eassumption]|].
    eapply IH; [eapply incl_app_r, Hi | exact He | eassumption].
  - (* CIfDefault *) intros k c IH dv N ctx s v r Hi He E. cbn [parse voc] in *. brk E.
    + destruct (IH N ctx s v r) as [A B]; [eapply incl_app_r, Hi | exact He | assumption|]. split; [exact A|]. intros n z Ev. cbn [tops]. apply in_or_app. right. eauto.
    + split.
      * destruct dv; try (now constructor); exfalso; apply no_name, Hi; now left.
      * intros n z ->. now left.
  - (* COpcode *) intros t N ctx s v r Hi He E. cbn [parse] in E. brk E. destruct (by_value_lows _ _ _ Heqo) as (n & w & -> & Hn). split; [now constructor|].
    intros n' z' E'. injection E' as <- <-. exact Hn.
  - (* CSwitchStruct *) intros k kc IHk t sw cs IH N ctx s v r Hi He E. cbn [parse voc] in *. brk E. split; [|discriminate]. apply tidy_dict.
    assert (K : In k P) by (eapply incl_hd, Hi). apply incl_tl' in Hi.
    destruct (IHk [] [] s (VEnum name z) l) as [A B]; [eapply incl_app_l, incl_app_r, Hi | apply enums_nil | assumption|].
    specialize (B _ _ eq_refl).
    refine (te_put (lower name) v1 [(k, VEnum name z)] _ _ _); [refine (te_dsets [(k, VEnum name z)] _); intros j y [E' | []]; injection E' as <- <-; split; [exact K | now constructor] | eapply incl_app_l; eassumption|].
    eapply (IH (tops kc)); [eapply incl_app_r, incl_app_r, Hi | | eassumption].
    refine (enums_dset _ k (VEnum name z) [] (enums_nil _) _). intros n' z' E'. injection E' as <- <-. exact B.
  - (* CProp *) intros h IHh t cs IH N ctx s v r Hi He E. cbn [parse voc] in *. brk E. split; [|discriminate]. apply tidy_dict.
    assert (K : In "property_id"%string P) by (eapply incl_hd, Hi). apply incl_tl' in Hi.
    apply te_put; [apply te_put; [apply te_ddel; [|discriminate] | exact K | now constructor] | eapply incl_app_l; [exact Hi | eapply lows_in; eassumption]|].
    + eapply tidy_entries_of, IHh; [eapply incl_app_l, incl_app_r, Hi | exact He | eassumption].
    + eapply IH; [eapply incl_app_r, incl_app_r, Hi | exact He | eassumption].
  - (* CSensorSetting *) intros h IHh t cs IH N ctx s v r Hi He E. cbn [parse voc] in *. destruct (parse h ctx s) as [[hv r0]| |] eqn:Eh; try discriminate. cbn [bind] in E.
    destruct hv as [| | | | | | | | | | d | | | | |]; try discriminate. destruct (dgetr sid_name d) as [iv| |] eqn:Ei; try discriminate. cbn [bind] in E.
    change (incl ((sid_name :: raw_name :: lows t) ++ voc N h ++ voc_k N cs) P) in Hi.
    assert (Hd : tidy_entries ok d) by (eapply tidy_entries_of, IHh; [eapply incl_app_l, incl_app_r, Hi | exact He | exact Eh]).
    destruct (setting_id t iv) as [idv nm] eqn:Es. apply setting_id_ok in Es as [Hid Hnm]; [|eapply incl_app_l, Hi | apply dgetr_some in Ei; eapply te_get; eassumption].
    destruct (as_intr idv) as [z| |]; try discriminate. cbn [bind] in E.
    assert (O : forall x, tidy ok x -> tidy ok (VDict (dset nm x (dset sid_name idv (ddel sid_name d))))).
    { intros x Hx. apply tidy_dict, te_put; [apply te_put; [apply te_ddel; [exact Hd | discriminate] | apply Hi; now left | exact Hid] | exact Hnm | exact Hx]. }
    destruct (find_case z cs).
    + destruct (parse_case z cs ctx r0) as [[x r1]| |] eqn:Ec; try discriminate. cbn [bind] in E. injection E as <- <-. split; [|discriminate]. apply O.
      eapply IH; [eapply incl_app_r, incl_app_r, Hi | exact He | exact Ec].
    + injection E as <- <-. split; [|discriminate]. apply O, tidy_ints.
  - (* CSensorData *) intros t cs IH N ctx s v r Hi He E. cbn [parse voc] in *. destruct s as [|b0 [|b1 s]]; try discriminate.
    destruct (if Z.odd b0 then _ else _) as [[[[fmt len] pid] s2]| |]; try discriminate. cbn [bind] in E.
    assert (K1 : In "format"%string P) by (eapply incl_hd, Hi). apply incl_tl' in Hi. assert (K2 : In "length"%string P) by (eapply incl_hd, Hi). apply incl_tl' in Hi.
    change (incl ((sid_name :: raw_name :: lows t) ++ voc_k N cs) P) in Hi.
    destruct (setting_id t (VInt pid)) as [idv nm] eqn:Es. apply setting_id_ok in Es as [Hid Hnm]; [|eapply incl_app_l, Hi | now constructor].
    assert (O : forall x, tidy ok x -> tidy ok (VDict (dset nm x [("format"%string, VInt fmt); ("length"%string, VInt len); (sid_name, idv)]))).
    { intros x Hx. apply tidy_dict, te_put; [|exact Hnm | exact Hx]. refine (te_dsets [("format"%string, VInt fmt); ("length"%string, VInt len); (sid_name, idv)] _).
      intros j y [E' | [E' | [E' | []]]]; injection E' as <- <-; (split; [first [assumption | apply Hi; now left] | first [assumption | now constructor]]). }
    destruct (find_case pid cs).
    + destruct (parse_case pid cs ctx _) as [[x r1]| |] eqn:Ec; try discriminate. cbn [bind] in E. injection E as <- <-. split; [|discriminate]. apply O.
      eapply IH; [eapply incl_app_r, Hi | exact He | exact Ec].
    + injection E as <- <-. split; [|discriminate]. apply O, tidy_ints.
  - (* FNil *) intros N obj s d r Hi Ht Ho He E. cbn [parse_fields] in E. injection E as <- <-. auto.
  - (* FCons *) intros k c IHc fs IH N obj s d r Hi Ht Ho He E. cbn [parse_fields voc_f tops_f] in *. brk E.
    destruct (IHc N obj s v l) as [A B]; [eapply incl_app_l, incl_app_r, Hi | exact He | assumption|].
    eapply (IH N); [eapply incl_app_r, incl_app_r, Hi | eapply incl_app_r, Ht | apply te_key; [exact Ho | eapply incl_app_l, Hi | exact A]
      | apply enums_dset; [exact He | intros n z ->; eapply incl_app_l; [exact Ht | eapply B; reflexivity]] | exact E].
  - (* FDefault *) intros k c IHc dv fs IH N obj s d r Hi Ht Ho He E. cbn [parse_fields voc_f tops_f] in *. brk E.
    destruct (IHc N obj s v l) as [A B]; [eapply incl_app_l, incl_app_r, Hi | exact He | assumption|].
    eapply (IH N); [eapply incl_app_r, incl_app_r, Hi | eapply incl_app_r, Ht | apply te_key; [exact Ho | eapply incl_app_l, Hi | exact A]
      | apply enums_dset; [exact He | intros n z ->; eapply incl_app_l; [exact Ht | eapply B; reflexivity]] | exact E].
  - (* FRebuild *) intros k e c IHc fs IH N obj s d r Hi Ht Ho He E. cbn [parse_fields voc_f tops_f] in *. brk E.
    destruct (IHc N obj s v l) as [A B]; [eapply incl_app_l, incl_app_r, Hi | exact He | assumption|].
    eapply (IH N); [eapply incl_app_r, incl_app_r, Hi | eapply incl_app_r, Ht | apply te_key; [exact Ho | eapply incl_app_l, Hi | exact A]
      | apply enums_dset; [exact He | intros n z ->; eapply incl_app_l; [exact Ht | eapply B; reflexivity]] | exact E].
  - (* FPad *) intros k n fs IH N obj s d r Hi Ht Ho He E. cbn [parse_fields voc_f tops_f] in *.
    destruct (take n s) as [[a r0]| |]; try discriminate. cbn [bind] in E. destruct k as [k|]; [|eapply (IH N); eassumption].
    refine (IH N (dset k VNone obj) r0 d r (incl_app_r _ _ _ _ Hi) Ht _ _ E); [apply te_key; [exact Ho | eapply incl_app_l, Hi | now constructor] | apply enums_dset; [exact He | discriminate]].
  - (* FStopIf *) intros k fs IH N obj s d r Hi Ht Ho He E. cbn [parse_fields voc_f tops_f] in *. destruct (dgetr k obj); try discriminate. cbn [bind] in E.
    destruct (match num_of a with Some q => Qzero q | None => false end); [injection E as <- <-; auto|]. eapply (IH N); eassumption.
  - (* FBits *) intros n bs IHb fs IH N obj s d r Hi Ht Ho He E. cbn [parse_fields voc_f tops_f] in *.
    destruct (take n s) as [[a r0]| |]; try discriminate. cbn [bind] in E.
    destruct (parse_fields bs [] (bytes2bits (rev a))) as [[bd r1]| |] eqn:Eb; try discriminate. cbn [bind] in E. destruct r1; [|discriminate].
    destruct (IHb N [] _ bd [] (incl_app_l _ _ _ _ Hi) (incl_app_l _ _ _ _ Ht) te_nil (enums_nil N) Eb) as [A B].
    destruct (copy_tidy N bs bd (dset "_" (VDict bd) obj)) as [A' B']; [eapply incl_app_l, Hi | exact A | exact B
      | apply te_dset; [exact Ho | now left | discriminate | now apply tidy_dict] | apply enums_dset; [exact He | discriminate]|].
    eapply (IH N); [eapply incl_app_r, Hi | eapply incl_app_r, Ht | exact A' | exact B' | exact E].
  - (* KNil *) intros N z ctx s v r Hi He E. cbn [parse_case] in E. injection E as <- <-. leafs.
  - (* KCons *) intros n w c IHc cs IH N z ctx s v r Hi He E. cbn [parse_case voc_k tops_k] in *. destruct (z =? w).
    + destruct (IHc N ctx s v r (incl_app_l _ _ _ _ Hi) He E) as [A B]. split; [exact A|]. intros. apply in_or_app. left. eauto.
    + destruct (IH N z ctx s v r (incl_app_r _ _ _ _ Hi) He E) as [A B]. split; [exact A|]. intros. apply in_or_app. right. eauto.
  - (* ANil *) discriminate.
  - (* ACons *) intros c IHc l IH N ctx s v r Hi He E. cbn [parse_alts voc_a tops_a] in *. destruct (parse c ctx s) as [[v0 r0]| |] eqn:Ep; [| |discriminate].
    + injection E as <- <-. destruct (IHc N ctx s v0 r0 (incl_app_l _ _ _ _ Hi) He Ep) as [A B]. split; [exact A|]. intros. apply in_or_app. left. eauto.
    + destruct (IH N ctx s v r (incl_app_r _ _ _ _ Hi) He E) as [A B]. split; [exact A|]. intros. apply in_or_app. right. eauto.
Qed.
End Tidy.

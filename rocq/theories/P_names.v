(** * P_names: conversion to camelCase and back (C51). *)
From Verif Require Import PyVal Bits Float64 Adapters AdapterSpec AdapterProofs2 Construct Access AccessProofs Names Vocab P_field.
Local Open Scope list_scope.

(** *** Specification: names that survive.
    A name is a sequence of words of small letters and digits, joined by underscores; every word but the first
    consists of letters and then digits; and a one-letter word (not the first) is followed, if at all, by a word
    with at least two letters. *)
Definition all (p : ascii -> bool) (l : chars) : Prop := Forall (fun a => p a = true) l.
Definition first_word (w : chars) : Prop := w <> [] /\ all is_ld w.
Definition later_word (w : chars) : Prop := exists a l d, w = a :: l ++ d /\ is_low a = true /\ all is_low l /\ all is_dig d.
Definition two_letters (w : chars) : Prop := exists a b l, w = a :: b :: l /\ is_low a = true /\ is_low b = true.
Fixpoint spaced (ws : list chars) : Prop :=
  match ws with
  | w :: ((w' :: _) as ws') => (length w = 1%nat -> two_letters w') /\ spaced ws'
  | _ => True
  end.
Definition good_name (s : string) : Prop :=
  exists w ws, s = string_of (join_us (w :: ws)) /\ first_word w /\ Forall later_word ws /\ spaced ws.

(** *** Characters *)
Ltac each a := destruct a as [[][][][][][][][]]; try reflexivity; try discriminate.
Lemma low_up a : is_low a = true -> is_up (upper_ascii a) = true. Proof. each a. Qed.
Lemma low_up_ld a : is_low a = true -> is_ld (upper_ascii a) = false. Proof. each a. Qed.
Lemma low_up_low a : is_low a = true -> is_low (upper_ascii a) = false. Proof. each a. Qed.
Lemma low_back a : is_low a = true -> lower_ascii (upper_ascii a) = a. Proof. each a. Qed.
Lemma low_ld a : is_low a = true -> is_ld a = true. Proof. each a. Qed.
Lemma dig_ld a : is_dig a = true -> is_ld a = true. Proof. each a. Qed.
Lemma ld_lower a : is_ld a = true -> lower_ascii a = a. Proof. each a. Qed.
Lemma ld_us a : is_ld a = true -> Ascii.eqb a "_" = false. Proof. each a. Qed.
Lemma ld_sp a : is_ld a = true -> Ascii.eqb a " " = false. Proof. each a. Qed.
Lemma ld_up a : is_ld a = true -> is_up a = false. Proof. each a. Qed.
Lemma low_letter a : is_low a = true -> is_letter a = true. Proof. each a. Qed.
Lemma dig_letter a : is_dig a = true -> is_letter a = false. Proof. each a. Qed.
Lemma low_look a : is_low a = true -> (is_up a || is_dig a || is_nonword a)%bool = false. Proof. each a. Qed.
Lemma chars_string l : chars_of (string_of l) = l. Proof. induction l as [|a l IH]; [reflexivity|]. cbn. now rewrite IH. Qed.
Lemma string_chars s : string_of (chars_of s) = s. Proof. induction s as [|a s IH]; [reflexivity|]. cbn. now rewrite IH. Qed.

(** *** camelcase *)
Definition clean (w : chars) : Prop := all is_ld w.
Lemma later_clean w : later_word w -> clean w.
Proof.
  intros (a & l & d & -> & H1 & H2 & H3). constructor; [now apply low_ld|]. apply Forall_app. split; eapply Forall_impl; try eassumption; cbn; auto using low_ld, dig_ld.
Qed.
Lemma split_clean w l : clean w -> split_us (w ++ l) = let (h, t) := split_us l in (w ++ h, t).
Proof. induction 1 as [|a w H _ IH]; cbn [app split_us]; [destruct (split_us l); reflexivity|]. rewrite IH. destruct (split_us l). now rewrite (ld_us _ H). Qed.
Lemma split_join w ws : clean w -> Forall clean ws -> split_us (join_us (w :: ws)) = (w, ws).
Proof.
  intros H HF. revert w H. induction HF as [|w' ws H' _ IH]; intros w H.
  - cbn [join_us]. rewrite <- (app_nil_r w) at 1. rewrite (split_clean _ _ H). cbn [split_us]. now rewrite app_nil_r.
  - change (join_us (w :: w' :: ws)) with (w ++ "_"%char :: join_us (w' :: ws)). rewrite (split_clean _ _ H). cbn [split_us]. rewrite (IH _ H').
    change (Ascii.eqb "_" "_") with true. cbv iota. now rewrite app_nil_r.
Qed.
Lemma plain_join ws : Forall clean ws -> map (fun a => if Ascii.eqb a " " then "_"%char else a) (map lower_ascii (join_us ws)) = join_us ws.
Proof.
  rewrite map_map. assert (C : forall w, clean w -> map (fun x => if Ascii.eqb (lower_ascii x) " " then "_"%char else lower_ascii x) w = w).
  { induction 1 as [|a w H _ IH]; [reflexivity|]. cbn [map]. now rewrite IH, (ld_lower _ H), (ld_sp _ H). }
  induction 1 as [|w ws H _ IH]; [reflexivity|]. destruct ws as [|w' ws]; [now apply C|].
  change (join_us (w :: w' :: ws)) with (w ++ "_"%char :: join_us (w' :: ws)). rewrite map_app. cbn [map]. rewrite IH, (C _ H). reflexivity.
Qed.
Lemma camel_join w ws : clean w -> Forall clean ws -> camel_chars (join_us (w :: ws)) = w ++ concat (map title ws).
Proof. intros H1 H2. unfold camel_chars. rewrite plain_join by (now constructor). now rewrite split_join. Qed.
Lemma title_digits d : all is_dig d -> forall b, title_from b d = d.
Proof. induction 1 as [|a d H _ IH]; intros b; [reflexivity|]. cbn [title_from]. now rewrite IH, (dig_letter _ H). Qed.
Lemma title_letters l d : all is_low l -> all is_dig d -> title_from true (l ++ d) = l ++ d.
Proof.
  intros H Hd. induction H as [|a l H _ IH]; cbn [app title_from]; [now apply title_digits|]. rewrite (low_letter _ H), IH. now rewrite (ld_lower _ (low_ld _ H)).
Qed.
Lemma title_word a l d : is_low a = true -> all is_low l -> all is_dig d -> title (a :: l ++ d) = upper_ascii a :: l ++ d.
Proof. intros H Hl Hd. unfold title. cbn [title_from]. now rewrite (low_letter _ H), title_letters. Qed.

(** *** snakecase *)
Definition stops (l : chars) : Prop := match l with [] => True | a :: _ => is_ld a = false end.
Lemma span_ld w l : clean w -> stops l -> span is_ld (w ++ l) = (w, l).
Proof.
  induction 1 as [|a w H _ IH]; intros St; cbn [app].
  - destruct l as [|b l]; [reflexivity|]. cbn [span]. cbn in St. now rewrite St.
  - cbn [span]. now rewrite H, IH.
Qed.
Lemma titles_stop ws : Forall later_word ws -> stops (concat (map title ws)).
Proof.
  destruct 1 as [|w ws (a & l & d & -> & H1 & H2 & H3) _]; [exact I|]. cbn [map concat]. rewrite title_word by assumption. cbn. now apply low_up_ld.
Qed.
Lemma findall_word fuel w r : match1 (w ++ r) = Some (w, r) -> w <> [] -> findall (S fuel) (w ++ r) = w :: findall fuel r.
Proof. intros H N. destruct w as [|a w]; [now elim N|]. cbn [app findall] in *. now rewrite H. Qed.
Lemma find_titles ws : Forall later_word ws -> spaced ws -> forall fuel, (length (concat (map title ws)) <= fuel)%nat ->
  map (map lower_ascii) (findall fuel (concat (map title ws))) = ws.
Proof.
  induction 1 as [|w ws Hw Hws IH]; intros Sp fuel Hf; [destruct fuel; reflexivity|].
  assert (Sp' : spaced ws) by (destruct ws; [exact I|apply Sp]).
  destruct Hw as (a & l & d & -> & H1 & H2 & H3). cbn [map concat] in *. rewrite title_word in * by assumption.
  set (r := concat (map title ws)) in *. pose proof (titles_stop ws Hws) as St. fold r in St.
  assert (Cl : clean (l ++ d)) by (apply Forall_app; split; eapply Forall_impl; try eassumption; cbn; auto using low_ld, dig_ld).
  destruct fuel as [|fuel]; [cbn in Hf; lia|].
  assert (W : map lower_ascii (upper_ascii a :: l ++ d) = a :: l ++ d).
  { cbn [map]. rewrite (low_back _ H1). f_equal. clear -Cl. induction Cl as [|b x H _ IHx]; [reflexivity|]. cbn [map]. now rewrite IHx, (ld_lower _ H). }
  assert (E : findall (S fuel) ((upper_ascii a :: l ++ d) ++ r) = (upper_ascii a :: l ++ d) :: findall fuel r).
  { destruct (l ++ d) as [|b x] eqn:Eld.
    - cbn [app findall match1]. rewrite (low_up _ H1).
      assert (Sr : span is_ld r = ([], r)) by (destruct r as [|c r']; [reflexivity|]; cbn [span]; cbn in St; now rewrite St). rewrite Sr.
      cbn [span]. rewrite (low_up_ld _ H1). unfold match2. cbn [span]. rewrite (low_up _ H1).
      destruct ws as [|w' ws].
      + subst r. cbn. destruct fuel; reflexivity.
      + destruct Sp as [Sp _]. assert (T : two_letters w') by (apply Sp; cbn [length]; rewrite ?Eld; reflexivity). inversion Hws as [|x y Hw' _ E1]; subst.
        destruct Hw' as (a' & l' & d' & -> & K1 & K2 & K3). destruct T as (p & q & z & Ep & P1 & P2).
        assert (Q : exists l2, l' = q :: l2). { destruct l' as [|q' l2]; [|exists l2; cbn in Ep; congruence]. cbn in Ep. destruct d' as [|q' d2]; [discriminate|]. injection Ep as _ -> _.
          inversion K3 as [|u v Kd _ E2]; subst. exfalso. clear -Kd P2. destruct q as [[][][][][][][][]]; discriminate. }
        destruct Q as (l2 & ->). subst r. cbn [map concat]. rewrite title_word by assumption. cbn [app span]. rewrite (low_up _ K1).
        inversion K2 as [|u v Kq K2' E2]; subst. rewrite (ld_up _ (low_ld _ Kq)). cbn [fst length give_back skipn firstn lookahead].
        pose proof (low_look _ Kq) as Lk. apply orb_false_iff in Lk as [Lk L3]. apply orb_false_iff in Lk as [L1 L2].
        rewrite L1, L2, L3. cbn [andb orb]. rewrite (low_up _ K1), Kq. reflexivity.
    - apply findall_word; [|discriminate]. cbn [app match1]. rewrite (low_up _ H1). change (b :: x ++ r) with ((b :: x) ++ r). rewrite (span_ld _ _ Cl St). reflexivity. }
  rewrite E, map_cons, W. rewrite IH; [reflexivity|exact Sp'|]. cbn [app length] in Hf. rewrite app_length in Hf. lia.
Qed.
(** *** C51, names *)
Theorem C51_name_round_trip : forall s, good_name s -> snakecase (camelcase s) = s.
Proof.
  intros s (w & ws & -> & (N & C) & L & Sp). unfold snakecase, camelcase. rewrite !chars_string. f_equal.
  rewrite camel_join; [|exact C|eapply Forall_impl; [|exact L]; apply later_clean].
  unfold snake_chars. pose proof (titles_stop ws L) as St. f_equal.
  destruct w as [|a w]; [now elim N|]. destruct (length ((a :: w) ++ concat (map title ws))) as [|fuel] eqn:El; [discriminate|].
  rewrite findall_word; [| |discriminate].
  - rewrite map_cons. f_equal; [|apply find_titles; [exact L|exact Sp|]].
    + change (map lower_ascii (a :: w) = a :: w). clear -C. induction C as [|b x H _ IH]; [reflexivity|]. cbn [map]. now rewrite IH, (ld_lower _ H).
    + cbn [app length] in El. rewrite app_length in El. lia.
  - cbn [app match1]. inversion C as [|u v Ka C' E]; subst. rewrite (ld_up _ Ka). change (a :: w ++ concat (map title ws)) with ((a :: w) ++ concat (map title ws)).
    rewrite (span_ld _ _ C St). reflexivity.
Qed.

(** *** Specification: the object with plain values and the same keys.
    Enum members are their numbers, bytes their hexadecimal text, sets are lists, dates and times are dictionaries
    of their parts, durations numbers of seconds; keys that start with an underscore are left out, and the object
    decoded by a named alternative (entry "_name") is put under that name. *)
Definition ascii_name (n : list Z) : string := string_of (map (fun z => ascii_of_nat (Z.to_nat z)) n).
Definition date_parts (day : Z) : dict :=
  let '(y, m, d) := civil_of day in [("year"%string, VInt y); ("month"%string, VInt m); ("day"%string, VInt d)].
Definition time_parts (us off : Z) : dict :=
  let t := us + off * 1000000 in
  date_parts (t / 86400000000) ++
  [("hour"%string, VInt (t mod 86400000000 / 3600000000)); ("minute"%string, VInt (t mod 86400000000 / 60000000 mod 60));
   ("second"%string, VInt (t mod 86400000000 / 1000000 mod 60)); ("microsecond"%string, VInt (t mod 86400000000 mod 1000000));
   ("time_zone_offset"%string, VFloat (rnd64 (off # 60)))].
Definition wrapped (name : option val) (body : val) : val :=
  match name with
  | Some (VStr (c :: n)) => VDict [(ascii_name (c :: n), body)]
  | _ => body
  end.
Fixpoint plain (v : val) : val :=
  match v with
  | VDict d => wrapped (dget "_name" d) (VDict (flat_map (fun p => if hidden (fst p) then [] else [(fst p, plain (snd p))]) d))
  | VList l | VSet l => VList (map plain l)
  | VEnum _ z => VInt z
  | VBytes l => VStr (hex l)
  | VDateTime us off => VDict (time_parts us off)
  | VDate day => VDict (date_parts day)
  | VTimedelta us => VFloat (rnd64 (us # 1000000))
  | _ => v
  end.
(** [tidy keeps v] (Vocab.v): in [v], at every depth, keys are distinct, and every key that does not start with an
    underscore, and every name of an alternative, survives the conversions *)
Definition keeps (k : string) : Prop := snakecase (camelcase k) = k /\ snakecase k = k /\ hidden k = false.

Lemma case_dict_eq case d acc : (fix go (d : dict) (acc : dict) : dict :=
        match d with
        | [] => acc
        | (k, x) :: d' => go d' (if hidden k then acc else dset (case k) (case_val case x) acc)
        end) d acc = case_dict case d acc.
Proof. revert acc. induction d as [|[k x] d IH]; intros acc; [reflexivity|]. cbn [case_dict]. apply IH. Qed.
Lemma case_val_dict case d : case_val case (VDict d) = wrapped (dget "_name" d) (VDict (case_dict case d [])).
Proof.
  cbn [case_val]. rewrite case_dict_eq. unfold wrapped. destruct (dget "_name" d) as [[]|]; try reflexivity. destruct s; reflexivity.
Qed.
Lemma camel_no_us l : Forall (fun a => Ascii.eqb a "_" = false) (camel_chars l).
Proof.
  unfold camel_chars. set (l' := map _ _). clearbody l'. 
  assert (S : let (h, t) := split_us l' in Forall (fun a => Ascii.eqb a "_" = false) h /\ Forall (Forall (fun a => Ascii.eqb a "_" = false)) t).
  { induction l' as [|a l' IH]; cbn [split_us]; [repeat constructor|]. destruct (split_us l') as [h t]. destruct IH as [H1 H2].
    destruct (Ascii.eqb a "_") eqn:E; split; auto. }
  destruct (split_us l') as [h t]. destruct S as [H1 H2]. apply Forall_app. split; [exact H1|].
  assert (T : forall w b, Forall (fun a => Ascii.eqb a "_" = false) w -> Forall (fun a => Ascii.eqb a "_" = false) (title_from b w)).
  { induction w as [|a w IH]; intros b H; [constructor|]. inversion H; subst. cbn [title_from]. constructor; [|now apply IH].
    destruct (is_letter a) eqn:E; [|assumption]. destruct b; clear -E; each a. }
  induction H2 as [|w t H _ IH]; [constructor|]. cbn [map concat]. apply Forall_app. split; [apply T, H | exact IH].
Qed.
Lemma camel_visible k : hidden (camelcase k) = false.
Proof.
  unfold camelcase. pose proof (camel_no_us (chars_of k)) as H. destruct (camel_chars (chars_of k)) as [|a l]; [reflexivity|]. inversion H; subst. exact H2.
Qed.
Lemma dget_none k d : ~ In k (keys d) -> dget k d = None.
Proof.
  induction d as [|[k' x] d IH]; intros H; [reflexivity|]. cbn [dget]. destruct (String.eqb k k') eqn:E.
  - apply String.eqb_eq in E as ->. elim H. now left.
  - apply IH. intros Hin. apply H. now right.
Qed.
(** converting with a function that is injective on the visible keys keeps every entry *)
Definition seen (case : string -> string) (f : val -> val) (d : dict) : dict :=
  flat_map (fun p => if hidden (fst p) then [] else [(case (fst p), f (snd p))]) d.
Lemma seen_keys case f d j : In j (keys (seen case f d)) -> exists k, In k (keys d) /\ hidden k = false /\ j = case k.
Proof.
  unfold keys, seen. intros H. apply in_map_iff in H as ([j' y] & <- & H). apply in_flat_map in H as ([k x] & Hin & H). cbn [fst snd] in H.
  destruct (hidden k) eqn:E; [easy|]. destruct H as [H | []]. injection H as <- <-. exists k. split; [|auto]. apply in_map_iff. now exists (k, x).
Qed.
Lemma case_dict_seen case d : forall acc, NoDup (keys d) ->
  (forall k k', In k (keys d) -> In k' (keys d) -> hidden k = false -> hidden k' = false -> case k = case k' -> k = k') ->
  (forall k, In k (keys d) -> hidden k = false -> ~ In (case k) (keys acc)) ->
  case_dict case d acc = acc ++ seen case (case_val case) d.
Proof.
  induction d as [|[k x] d IH]; intros acc ND Inj Fr; [now rewrite app_nil_r|]. cbn [case_dict]. apply NoDup_cons_iff in ND as [Nk ND].
  unfold seen. cbn [flat_map fst snd]. fold (seen case (case_val case) d). destruct (hidden k) eqn:E; cbn [app].
  - apply IH; [exact ND | |]; intros.
    + apply Inj; auto; now right.
    + apply Fr; [now right | auto].
  - rewrite IH; [| exact ND | |].
    + rewrite dset_fresh by (apply dget_none, Fr; [now left | exact E]). now rewrite <- app_assoc.
    + intros. apply Inj; auto; now right.
    + intros k' Hk' Hh Hin. apply keys_In_dset in Hin as [Hin | Hin].
      * apply Nk. replace (fst (k, x)) with k' by (apply Inj; auto; [now right | now left]). exact Hk'.
      * revert Hin. apply Fr; [now right | exact Hh].
Qed.
Lemma ascii_cps s : ascii_name (cps s) = s.
Proof.
  unfold ascii_name. induction s as [|a s IH]; [reflexivity|]. cbn [cps map string_of]. rewrite IH, Nat2Z.id, ascii_nat_embedding. reflexivity.
Qed.
Lemma seen_seen f g d : (forall k x, In (k, x) d -> hidden k = false -> snakecase (camelcase k) = k) ->
  seen snakecase g (seen camelcase f d) = seen (fun k => k) (fun x => g (f x)) d.
Proof.
  induction d as [|[k x] d IH]; intros H; [reflexivity|]. unfold seen in *. cbn [flat_map fst snd].
  destruct (hidden k) eqn:E; cbn [app]; [apply IH; intros; eapply H; [right; eassumption | assumption]|].
  cbn [flat_map fst snd]. rewrite camel_visible. cbn [app]. rewrite (H k x (or_introl eq_refl) E). f_equal.
  apply IH. intros; eapply H; [right; eassumption | assumption].
Qed.
Lemma seen_ext case f g d : (forall k x, In (k, x) d -> f x = g x) -> seen case f d = seen case g d.
Proof.
  induction d as [|[k x] d IH]; intros H; [reflexivity|]. unfold seen in *. cbn [flat_map fst snd]. rewrite (H k x (or_introl eq_refl)).
  f_equal. apply IH. intros; eapply H; right; eassumption.
Qed.
Lemma snake_no_name d : (forall k, In k (keys d) -> hidden k = false) -> dget "_name" d = None.
Proof. intros H. apply dget_none. intros Hin. now specialize (H _ Hin). Qed.

(** *** C51, objects *)
Theorem C51_round_trip : forall v, tidy keeps v -> to_snakecase_dict (to_camelcase_dict v) = plain v.
Proof.
  unfold to_snakecase_dict, to_camelcase_dict.
  induction v using val_ind'; intros T; try reflexivity.
  - cbn [case_val plain]. rewrite map_map. f_equal. apply map_ext_in. intros x Hx. rewrite Forall_forall in H. apply H; [exact Hx|]. inversion T; subst; [discriminate | auto].
  - cbn [case_val plain]. rewrite map_map. f_equal. apply map_ext_in. intros x Hx. rewrite Forall_forall in H. apply H; [exact Hx|]. inversion T; subst; [discriminate | auto].
  - assert (TE : tidy_entries keeps d) by (inversion T; subst; [discriminate | assumption]). destruct TE as [d ND Hk Hx Hn].
    rewrite case_val_dict. rewrite case_dict_seen; [|exact ND| |easy].
    2:{ intros k k' H1 H2 E1 E2 E. destruct (Hk _ H1) as [?|[K1 _]]; [congruence|]. destruct (Hk _ H2) as [?|[K2 _]]; [congruence|]. congruence. }
    cbn [app]. set (b := seen camelcase (case_val camelcase) d).
    assert (B : case_val snakecase (VDict b) = VDict (seen (fun k => k) plain d)).
    { rewrite case_val_dict. rewrite snake_no_name.
      2:{ intros k Hin. apply seen_keys in Hin as (k' & _ & _ & ->). apply camel_visible. }
      cbn [wrapped]. f_equal. rewrite case_dict_seen; [| | |easy].
      - cbn [app]. unfold b. rewrite seen_seen.
        + apply seen_ext. intros k x Hin. rewrite Forall_forall in H. apply (H (k, x) Hin), (Hx _ _ Hin).
        + intros k x Hin E. destruct (Hk k) as [?|[K _]]; [apply in_map_iff; now exists (k, x) | congruence | exact K].
      - unfold b. assert (G : forall d, NoDup (keys d) -> (forall k, In k (keys d) -> hidden k = true \/ keeps k) -> NoDup (keys (seen camelcase (case_val camelcase) d))).
        { clear. induction d as [|[k x] d IH]; intros ND Hk; [constructor|]. apply NoDup_cons_iff in ND as [Nk ND].
          unfold seen. cbn [flat_map fst snd]. fold (seen camelcase (case_val camelcase) d).
          assert (IH' : NoDup (keys (seen camelcase (case_val camelcase) d))) by (apply IH; [exact ND | intros; apply Hk; now right]).
          destruct (hidden k) eqn:E; [exact IH'|]. cbn [app]. unfold keys. cbn [map fst]. constructor; [|exact IH'].
          intros Hin. apply seen_keys in Hin as (k' & Hin & Eh & Ec). apply Nk.
          destruct (Hk k (or_introl eq_refl)) as [?|[K1 _]]; [congruence|]. destruct (Hk k' (or_intror Hin)) as [?|[K2 _]]; [congruence|].
          replace (fst (k, x)) with k' by (cbn; congruence). exact Hin. }
        apply G; auto.
      - intros k k' H1 H2 _ _ E. apply seen_keys in H1 as (k1 & I1 & E1 & ->). apply seen_keys in H2 as (k2 & I2 & E2 & ->).
        destruct (Hk _ I1) as [?|[K1 _]]; [congruence|]. destruct (Hk _ I2) as [?|[K2 _]]; [congruence|]. congruence. }
    cbn [plain]. change (flat_map (fun p : string * val => if hidden (fst p) then [] else [(fst p, plain (snd p))]) d) with (seen (fun k => k) plain d).
    destruct (dget "_name" d) as [x|] eqn:E; [|exact B]. destruct (Hn _ eq_refl) as (n & -> & _ & N & V).
    destruct n as [|a n]; [exact B|]. cbn [cps wrapped]. change (Z.of_nat (nat_of_ascii a) :: cps n) with (cps (String a n)). rewrite ascii_cps.
    rewrite case_val_dict. cbn [case_dict dget].
    destruct (String.eqb "_name" (String a n)) eqn:E1.
    { apply String.eqb_eq in E1. rewrite <- E1 in N. vm_compute in N. discriminate. }
    rewrite V. cbn [wrapped dset]. now rewrite N, B.
Qed.

(** *** C51, messages *)
(** the key [k] (or the name [k] of an alternative) occurs in the object, at some depth *)
Inductive occurs (k : string) : val -> Prop :=
| occ_key d x : In (k, x) d -> occurs k (VDict d)
| occ_name d : dget "_name" d = Some (VStr (cps k)) -> occurs k (VDict d)
| occ_in d j x : In (j, x) d -> occurs k x -> occurs k (VDict d)
| occ_list l x : In x l -> occurs k x -> occurs k (VList l)
| occ_set l x : In x l -> occurs k x -> occurs k (VSet l).
(** every key of every message *)
Definition vocabulary : list string :=
  "opcode"%string :: "params"%string :: flat_map (fun p => voc [] (snd p)) access_table.
(** the two declared names that do not survive (config.py:672 and 803) *)
Definition lost_names : list string := ["app key indices"; "GATT_proxy"]%string.

Fixpoint uniq (acc l : list string) : list string :=
  match l with [] => acc | k :: l' => uniq (if existsb (String.eqb k) acc then acc else k :: acc) l' end.
Lemma uniq_in l : forall acc k, In k l \/ In k acc -> In k (uniq acc l).
Proof.
  induction l as [|a l IH]; intros acc k H; [destruct H as [[]|H]; exact H|]. cbn [uniq]. apply IH. destruct (existsb (String.eqb a) acc) eqn:E.
  - destruct H as [[-> | H] | H]; auto. right. apply existsb_exists in E as (j & Hj & E). apply String.eqb_eq in E as ->. exact Hj.
  - destruct H as [[-> | H] | H]; auto; right; [now left | now right].
Qed.
Lemma nodup_check (p : string -> bool) l : forallb p (uniq [] l) = true -> forall k, In k l -> p k = true.
Proof. rewrite forallb_forall. intros H k Hk. apply H, uniq_in. now left. Qed.
Definition keepsb (k : string) : bool := String.eqb (snakecase (camelcase k)) k && String.eqb (snakecase k) k && negb (hidden k).
Lemma keepsb_spec k : keepsb k = true <-> keeps k.
Proof. unfold keepsb, keeps. rewrite !andb_true_iff, !String.eqb_eq, negb_true_iff. tauto. Qed.
Lemma vocabulary_checked : forall k, In k vocabulary -> (keepsb k || existsb (String.eqb k) lost_names)%bool = true.
Proof. apply nodup_check. vm_cast_no_check (eq_refl true). Qed.
Lemma vocabulary_keeps : forall k, In k vocabulary -> keeps k \/ In k lost_names.
Proof.
  intros k Hk. pose proof (vocabulary_checked k Hk) as E. apply orb_true_iff in E as [E | E]; [left; now apply keepsb_spec|]. right.
  apply existsb_exists in E as (j & Hj & E). apply String.eqb_eq in E as ->. exact Hj.
Qed.
Lemma vocabulary_clean : ~ In "_name"%string vocabulary.
Proof. intros H. destruct (vocabulary_keeps _ H) as [(_ & _ & E) | [E | [E | []]]]; discriminate. Qed.
Lemma family_vocabulary t c : family t c -> incl (voc [] c) vocabulary.
Proof.
  intros H k Hk. right. right. apply in_flat_map. exists (t, c). split; [exact H | exact Hk].
Qed.
(** every key that a decoded message can have, at any depth, is one of the vocabulary *)
Theorem C51_vocabulary : forall s v, access_parse s = Ok v -> tidy (fun k => In k vocabulary) v.
Proof.
  intros s v. unfold access_parse, access_parse_at. destruct (opcode_parse s) as [[z r]| |]; try discriminate. cbn [bind].
  assert (O : In "opcode"%string vocabulary) by now left. assert (Pm : In "params"%string vocabulary) by (right; now left).
  pose proof vocabulary_clean as C. pose proof family_vocabulary as F. destruct (access_lookup z) as [[m c]|] eqn:El.
  - apply access_lookup_spec in El as (t & n & Hf & _ & ->). specialize (F _ _ Hf). unfold parse_msg. generalize dependent vocabulary. intros V O Pm C F.
    destruct (parse c [] ([] ++ s)) as [[x r']| |] eqn:Ep; try discriminate. cbn [bind]. destruct x; try discriminate.
    intros E. injection E as <-. apply tidy_dict. apply te_put; [exact C | | exact O | now constructor].
    eapply tidy_entries_of. eapply (proj1 (parse_tidy V C)); [exact F | apply enums_nil | exact Ep].
  - generalize dependent vocabulary. intros V O Pm C F E. injection E as <-. apply tidy_dict. refine (te_dsets V C [("opcode"%string, _); ("params"%string, _)] _).
    intros k x [E | [E | []]]; injection E as <- <-; (split; [assumption | now constructor]).
Qed.
Lemma tidy_only (P Q : string -> Prop) v : (forall k, P k -> Q k \/ In k lost_names) -> (forall k, In k lost_names -> ~ occurs k v) -> tidy P v -> tidy Q v.
Proof.
  intros PQ. induction v using val_ind'; intros NO T; try (now constructor).
  - apply tidy_list. inversion T; subst; [discriminate|]. rewrite Forall_forall in H. intros x Hx. apply H; [exact Hx | | auto]. intros k Hk Ho. apply (NO k Hk). eapply occ_list; eassumption.
  - apply tidy_set. inversion T; subst; [discriminate|]. rewrite Forall_forall in H. intros x Hx. apply H; [exact Hx | | auto]. intros k Hk Ho. apply (NO k Hk). eapply occ_set; eassumption.
  - apply tidy_dict. inversion T as [? E|?|?|? TE]; subst; [discriminate|]. destruct TE as [d ND Hk Hx Hn]. rewrite Forall_forall in H. constructor.
    + exact ND.
    + intros k Hin. destruct (Hk k Hin) as [?|Pk]; [now left|]. destruct (PQ k Pk) as [?|L]; [now right|]. elim (NO k L).
      apply in_map_iff in Hin as ([k' x] & <- & Hin). eapply occ_key, Hin.
    + intros k x Hin. apply (H (k, x) Hin); [|eapply Hx, Hin]. intros j Hj Ho. apply (NO j Hj). eapply occ_in; [exact Hin | exact Ho].
    + intros x E. destruct (Hn x E) as (n & -> & Pn). exists n. split; [reflexivity|]. destruct (PQ n Pn) as [?|L]; [assumption|]. elim (NO n L). now apply occ_name.
Qed.
(** a decoded message, converted to camelCase and back, has exactly its own keys *)
Theorem C51_message : forall s v, access_parse s = Ok v -> (forall k, In k lost_names -> ~ occurs k v) ->
  to_snakecase_dict (to_camelcase_dict v) = plain v.
Proof.
  intros s v E NO. apply C51_round_trip. eapply tidy_only; [exact vocabulary_keeps | exact NO | eapply C51_vocabulary, E].
Qed.

(** *** The names that do not survive *)
(** the object can be sent; converted to camelCase and back it cannot (the list is now called "app_key_indices") *)
Definition again (v : val) : val := to_snakecase_dict (to_camelcase_dict v).
Theorem C51_app_key_indices_refuted : exists s v, access_parse s = Ok v /\ occurs "app key indices" v /\ access_build v = Ok s /\ access_build (again v) = Err EKey.
Proof.
  exists [128; 76; 0; 1; 0; 0; 16; 1; 0]. eexists. split; [vm_compute; reflexivity|].
  split; [eapply occ_in; [right; now left|]; eapply occ_key; right; right; right; now left|]. split; vm_compute; reflexivity.
Qed.
(** (CONFIG_GATT_PROXY_STATUS, config.py:814-818) *)
Theorem C51_gatt_proxy_refuted : exists s v, access_parse s = Ok v /\ occurs "GATT_proxy" v /\ access_build v = Ok s /\ access_build (again v) = Err EKey.
Proof.
  exists [128; 20; 1]. eexists. split; [vm_compute; reflexivity|].
  split; [eapply occ_in; [right; now left|]; eapply occ_key; now left|]. split; vm_compute; reflexivity.
Qed.
(** names outside the rule of [good_name] *)
Theorem C51_digits_then_letters_refuted : snakecase (camelcase "size_2d") <> "size_2d"%string.
Proof. vm_compute. discriminate. Qed.
Theorem C51_one_letter_words_refuted : snakecase (camelcase "value_a_b") <> "value_a_b"%string.
Proof. vm_compute. discriminate. Qed.
(** a message that can be converted, and sent again from the converted object *)
Example C51_case : exists s v, access_parse s = Ok v /\ (forall k, In k lost_names -> ~ occurs k v) /\ again v = plain v /\ access_build (again v) = Ok s.
Proof.
  exists [130; 4; 1]. eexists. split; [vm_compute; reflexivity|]. split; [|split; vm_compute; reflexivity].
  intros k [<- | [<- | []]] H;
    repeat match goal with
           | H : In _ (_ :: _) |- _ => destruct H as [H | H]; [discriminate H || injection H; intros; subst|]
           | H : In _ [] |- _ => destruct H
           | H : dget _ _ = _ |- _ => discriminate H
           | H : occurs _ _ |- _ => inversion H; clear H; subst
           end.
Qed.

(** *** The parts of a date are those of the calendar *)
Lemma year_of_spec n : days_before_year (year_of n) <= n < days_before_year (year_of n + 1).
Proof.
  unfold year_of. set (y := 400 * n / 146097 + 1).
  assert (A : days_before_year (y - 1) <= n < days_before_year (y + 2)).
  { subst y. unfold days_before_year. split; Z.div_mod_to_equations; lia. }
  destruct (Z.leb_spec (days_before_year (y + 1)) n); [replace (y + 1 + 1) with (y + 2) by lia; lia|].
  destruct (Z.ltb_spec n (days_before_year y)); [replace (y - 1 + 1) with y by lia; lia | lia].
Qed.
Lemma month_from_spec y k : forall fuel m, days_before_month y m <= k ->
  let r := month_from y k fuel m in (m <= r <= m + fuel)%nat /\ days_before_month y r <= k /\ (r = (m + fuel)%nat \/ k < days_before_month y (S r)).
Proof.
  induction fuel as [|f IH]; intros m H; cbn [month_from]; [split; [lia|]; split; [exact H|]; left; lia|].
  destruct (Z.leb_spec (days_before_month y (S m)) k) as [L|L]; [|split; [lia|]; split; [exact H | now right]].
  specialize (IH (S m) L). destruct IH as (I1 & I2 & I3). split; [lia|]. split; [exact I2|]. destruct I3 as [->|I3]; [left; lia | now right].
Qed.
Lemma civil_of_days z y m d : min_day <= z <= max_day -> civil_of z = (y, m, d) -> civil_days y m d = Some z.
Proof.
  intros Hz E. unfold civil_of in E. set (n := z + epoch_day) in *. pose proof (year_of_spec n) as Y. set (y0 := year_of n) in *.
  set (k := n - days_before_year y0) in *. set (m0 := month_from y0 k 11 1) in *. injection E as <- <- <-.
  assert (B : 1 <= y0 <= 9999).
  { unfold min_day, max_day, n, epoch_day in *. unfold days_before_year in Y. split; Z.div_mod_to_equations; lia. }
  pose proof (year_step y0 ltac:(lia)) as S1. pose proof (year_len y0) as S2.
  assert (K : 0 <= k < (if is_leap y0 then 366 else 365)) by (subst k; lia).
  assert (M := month_from_spec y0 k 11 1 ltac:(cbn [days_before_month]; lia)). cbn zeta in M. fold m0 in M. destruct M as (M1 & M2 & M3).
  assert (L : k < days_before_month y0 m0 + days_in_month y0 (Z.of_nat m0)).
  { destruct M3 as [M3 | M3].
    - rewrite M3. change (1 + 11)%nat with 12%nat. change (days_in_month y0 (Z.of_nat 12)) with 31. lia.
    - destruct m0 as [|m1]; [lia|]. exact M3. }
  unfold civil_days. rewrite Nat2Z.id.
  destruct (Z.leb_spec 1 y0); [|lia]. destruct (Z.leb_spec y0 9999); [|lia].
  destruct (Z.leb_spec 1 (Z.of_nat m0)); [|lia]. destruct (Z.leb_spec (Z.of_nat m0) 12); [|lia].
  destruct (Z.leb_spec 1 (k - days_before_month y0 m0 + 1)); [|lia]. destruct (Z.leb_spec (k - days_before_month y0 m0 + 1) (days_in_month y0 (Z.of_nat m0))); [|lia].
  cbn [andb]. f_equal. subst k n. lia.
Qed.
Theorem C51_date_parts : forall z y m d, min_day <= z <= max_day -> civil_of z = (y, m, d) -> calendar y m d z.
Proof. intros z y m d Hz E. apply civil_calendar. now apply civil_of_days. Qed.
(** a converted date is accepted in place of the date *)
Theorem C51_date_again : forall z, min_day <= z <= max_day -> encode ADate (again (VDate z)) = encode ADate (VDate z).
Proof.
  intros z Hz. unfold again. rewrite C51_round_trip by now constructor. cbn [plain encode date_encode]. unfold date_parts.
  destruct (civil_of z) as [[y m] d] eqn:E. cbn [date_encode geti dgetr dget bind as_intr as_int String.eqb Ascii.eqb Bool.eqb]. unfold geti, dgetr. cbn.
  rewrite (civil_of_days _ _ _ _ Hz E). reflexivity.
Qed.
(** a converted date and time (whole minutes from UTC) is the same date and time *)
Theorem C51_time_again : forall us off, in_dt (us + off * 1000000) = true -> tz_ok off = true -> off mod 60 = 0 ->
  datetime_of (again (VDateTime us off)) = Ok (us, off).
Proof.
  intros us off Hd Ht Hm. unfold again. rewrite C51_round_trip by now constructor. cbn [plain]. unfold time_parts, date_parts.
  set (t := us + off * 1000000) in *. set (r := t mod 86400000000).
  assert (Hz : min_day <= t / 86400000000 <= max_day).
  { unfold in_dt in Hd. apply andb_true_iff in Hd as [H1 H2]. apply Z.leb_le in H1. apply Z.ltb_lt in H2. unfold min_us, max_us, min_day, max_day in *. Z.div_mod_to_equations; lia. }
  assert (Et : t = 86400000000 * (t / 86400000000) + r) by (subst r; apply Z.div_mod; lia).
  assert (Hr : 0 <= r < 86400000000) by (subst r; apply Z.mod_pos_bound; lia).
  destruct (civil_of (t / 86400000000)) as [[y m] d] eqn:E. apply civil_of_days in E; [|exact Hz].
  assert (Eo : rnd64 (off # 60) = inject_Z (off / 60)).
  { rewrite <- rnd64_int.
    - apply rnd64_comp. unfold Qeq, inject_Z. cbn [Qnum Qden]. Z.div_mod_to_equations; lia.
    - unfold tz_ok in Ht. apply andb_true_iff in Ht as [H1 H2]. apply Z.ltb_lt in H1, H2. assert (-1440 <= off / 60 <= 1440) by (Z.div_mod_to_equations; lia). lia. }
  rewrite Eo. unfold datetime_of. set (day := t / 86400000000) in *. clearbody day.
  cbn [app]. unfold geti, dgetr. cbn [dget String.eqb Ascii.eqb Bool.eqb bind int_key as_intr as_int inject_Z Qden Qnum Pos.eqb].
  rewrite E. replace (off / 60 * 60) with off by (Z.div_mod_to_equations; lia). rewrite Ht.
  assert (H1 : 0 <= r / 3600000000 < 24) by (Z.div_mod_to_equations; lia).
  assert (H2 : 0 <= r / 60000000 mod 60 < 60) by (apply Z.mod_pos_bound; lia).
  assert (H3 : 0 <= r / 1000000 mod 60 < 60) by (apply Z.mod_pos_bound; lia).
  assert (H4 : 0 <= r mod 1000000 < 1000000) by (apply Z.mod_pos_bound; lia).
  destruct H1, H2, H3, H4.
  repeat match goal with |- context [?a <=? ?b] => destruct (Z.leb_spec a b); [|lia] | |- context [?a <? ?b] => destruct (Z.ltb_spec a b); [|lia] end.
  cbn [andb]. do 2 f_equal. subst t. Z.div_mod_to_equations; lia.
Qed.

(** *** Octets *)
(** the value of a digit as bytes.hex writes it: lower case *)
Definition nibble_of (c : Z) : option Z :=
  if (48 <=? c) && (c <=? 57) then Some (c - 48) else if (97 <=? c) && (c <=? 102) then Some (c - 87) else None.
(** the text [t] writes the octets [l], two digits each *)
Inductive writes : list Z -> list Z -> Prop :=
| wr_nil : writes [] []
| wr_cons x y p q t l : nibble_of x = Some p -> nibble_of y = Some q -> writes t l -> writes (x :: y :: t) (16 * p + q :: l).
Lemma writes_det t l : writes t l -> forall l', writes t l' -> l = l'.
Proof. induction 1 as [|x y p q t l Hx Hy H IH]; intros l' W; inversion W as [|x' y' p' q' t' l0 Hx' Hy' H' E1 E2]; subst; [reflexivity|]. rewrite Hx in Hx'. rewrite Hy in Hy'. injection Hx' as ->. injection Hy' as ->. f_equal. now apply IH. Qed.
(** octets are converted to hexadecimal text, from which they can be read back in one way only *)
Theorem C51_octets : forall l, bytes l -> exists t, to_camelcase_dict (VBytes l) = VStr t /\ to_snakecase_dict (VBytes l) = VStr t /\ writes t l /\
  forall l', writes t l' -> l' = l.
Proof.
  intros l Hl. exists (hex l). split; [reflexivity|]. split; [reflexivity|].
  assert (W : writes (hex l) l).
  { induction Hl as [|b l Hb Hl IH]; [constructor|]. unfold isbyte in Hb. cbn [hex flat_map app].
    assert (N : forall z, 0 <= z < 16 -> nibble_of (hex_digit z) = Some z).
    { intros z Hz. unfold nibble_of, hex_digit. destruct (Z.ltb_spec z 10).
      - destruct (Z.leb_spec 48 (48 + z)); [|lia]. destruct (Z.leb_spec (48 + z) 57); [|lia]. cbn [andb]. f_equal. lia.
      - destruct (Z.leb_spec 48 (87 + z)); [|lia]. destruct (Z.leb_spec (87 + z) 57); [lia|]. cbn [andb].
        destruct (Z.leb_spec 97 (87 + z)); [|lia]. destruct (Z.leb_spec (87 + z) 102); [|lia]. cbn [andb]. f_equal. lia. }
    rewrite (Z.div_mod b 16) at 3 by lia. constructor; [apply N; Z.div_mod_to_equations; lia | apply N, Z.mod_pos_bound; lia | exact IH]. }
  split; [exact W|]. intros l' W'. symmetry. exact (writes_det _ _ W _ W').
Qed.
Print Assumptions C51_octets.
Example C51_octets_ex : to_camelcase_dict (VBytes [0; 171]) = VStr (cps "00ab").
Proof. vm_compute. reflexivity. Qed.

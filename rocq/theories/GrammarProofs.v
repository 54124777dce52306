(** * GrammarProofs: declarations that follow a grammar (basis of C57).

    [form c f]: the declaration [c] is written the way [f] says.  Then what is sent for a value and what is received for
    octets are related by [enc]. *)
From Verif Require Import PyVal Bits Utf8 Adapters Construct Size Master Sound Shape BitLayout P_layout P_text P_names Codes P_codes Grammar.
From Coq Require Import Lia.
Local Open Scope list_scope.
Local Open Scope Z_scope.

Definition codes_same (n : nat) (sg : bool) (t : enum) (t' : codes) : bool :=
  (forallb (fun m => match by_value t (snd m) with Some (VEnum a b) => String.eqb a (fst m) && Z.eqb b (snd m) && Z.leb (int_min n sg) b && Z.leb b (int_max n sg) | _ => false end) t' &&
  forallb (fun m => in_table_of (fst m) (snd m) t') t)%bool.
Definition tags_ok (k : string) (t : enum) (l : list (string * Z * fmt)) : bool :=
  (forallb (fun q => match by_value t (snd (fst q)) with Some (VEnum a b) => String.eqb a (fst (fst q)) && Z.eqb b (snd (fst q)) && Z.leb 0 b && Z.ltb b 256 && negb (String.eqb (lower a) k) | _ => false end) l &&
  forallb (fun m => existsb (fun q => String.eqb (fst m) (fst (fst q)) && Z.eqb (snd m) (snd (fst q))) l) t)%bool.
Definition num_fmt (f : fmt) : bool := match f with FU _ | FE _ _ => true | _ => false end.

Inductive form_bits : fields -> list (string * nat) -> Prop :=
| fb_nil : form_bits FNil []
| fb_bits k w fs l : form_bits fs l -> form_bits (FCons k (CBits w false) fs) ((k, w) :: l)
| fb_int k n fs l : form_bits fs l -> form_bits (FCons k (CBytewise (CBytesInt n false)) fs) ((k, (8 * n)%nat) :: l).
Inductive form : con -> fmt -> Prop :=
| form_u n : form (CInt n false) (FU n)
| form_s n : (0 < n)%nat -> form (CInt n true) (FS n)
| form_e n sg t t' : (0 < n)%nat -> codes_same n sg t t' = true -> form (CAdapt (AEnum t) (CInt n sg)) (FE n t')
| form_float n : form (CIeee n) (FFloat n)
| form_blob : form CPrefixedBytes FBlob
| form_text : form CPascalString FText
| form_all : form CGreedyBytes FAll
| form_word n bs l : form_bits bs l -> width l = (8 * n)%nat -> distinct (map fst l) = true -> form (CReversed n (CBitwise (CStruct bs))) (FWord n l)
| form_count c f : form c f -> form (CPrefixedArray c) (FCount f)
| form_rest c f : form c f -> form (CGreedyRange c) (FRest f)
| form_set c f : form c f -> num_fmt f = true -> form (CAdapt ASet (CGreedyRange c)) (FRestSet f)
| form_rec fs l : form_fields l fs l -> distinct (map fst l) = true -> form (CStruct fs) (FRec l)
| form_forms fs1 fs2 l n1 n2 k f : form_fields (l ++ [(k, Plain f)]) fs1 (l ++ [(k, Plain f)]) -> form_fields l fs2 l ->
    distinct (n1 :: map fst l ++ [k]) = true -> distinct (n2 :: map fst l) = true -> distinct ("_name"%string :: map fst l ++ [k]) = true ->
    form (CSelect (ACons (CNamed n1 (CStruct fs1)) (ACons (CNamed n2 (CStruct fs2)) ANil))) (FForms l n1 n2 k f)
| form_case k o t cs l : form_cases cs l -> tags_ok k t l = true -> String.eqb o k = false ->
    form (CStruct (FCons k (CAdapt (AEnum t) (CInt 1 false)) (FCons o (CSwitch k cs) FNil))) (FCase k o l)
| form_own k t sw cs l : form_cases cs l -> tags_ok k t l = true -> form (CSwitchStruct k (CAdapt (AEnum t) (CInt 1 false)) t sw cs) (FOwn k l)
| form_leaf c (P : val -> list Z -> Prop) : (forall ctx v s, P v s -> build c ctx v = Ok s) ->
    (forall ctx s v r, bytes s -> parse c ctx s = Ok (v, r) -> exists p, s = p ++ r /\ P v p) ->
    (forall ctx v s r, bytes (s ++ r) -> P v s -> exists v', parse c ctx (s ++ r) = Ok (v', r) /\ as_int v' = as_int v) -> (forall ctx, exists e, parse c ctx [] = Err e) -> form c (FLeaf P)
| form_flag : form CFlag FFlag
with form_fields : list (string * field) -> fields -> list (string * field) -> Prop :=
| ff_nil L : form_fields L FNil []
| ff_plain L k c f fs l : form c f -> form_fields L fs l -> form_fields L (FCons k c fs) ((k, Plain f) :: l)
| ff_number L k k' n f fs l : In (k', Items k f) L -> form_fields L fs l -> form_fields L (FRebuild k (ELen k') (CInt n false) fs) ((k, Plain (FU n)) :: l)
| ff_items L k kc c f fs l : form c f -> form_fields L fs l -> form_fields L (FCons k (CArray (EGet kc) c) fs) ((k, Items kc f) :: l)
with form_cases : cases -> list (string * Z * fmt) -> Prop :=
| fk_nil : form_cases KNil []
| fk_cons n z c f cs l : form c f -> form_cases cs l -> existsb (fun q => Z.eqb z (snd (fst q))) l = false -> form_cases (KCons n z c cs) ((n, z, f) :: l).
Scheme form_mi := Minimality for form Sort Prop
  with form_fields_mi := Minimality for form_fields Sort Prop
  with form_cases_mi := Minimality for form_cases Sort Prop.
Combined Scheme form_mutind from form_mi, form_fields_mi, form_cases_mi.

(** ** Numbers *)
Lemma pow2_256 n : 256 ^ Z.of_nat n = 2 ^ (8 * Z.of_nat n).
Proof. change 256 with (2 ^ 8). rewrite <- Z.pow_mul_r by lia. reflexivity. Qed.
Lemma int_range n sg z : (0 < n)%nat -> (int_min n sg <= z <= int_max n sg) <-> (if sg then - 256 ^ Z.of_nat n <= 2 * z < 256 ^ Z.of_nat n else 0 <= z < 256 ^ Z.of_nat n).
Proof.
  intros Hn. unfold int_min, int_max. rewrite pow2_256. destruct sg; [|lia].
  replace (8 * Z.of_nat n) with (Z.succ (8 * Z.of_nat n - 1)) at 3 4 by lia. rewrite Z.pow_succ_r by lia. lia.
Qed.
Lemma int_build n sg ctx z x : as_int x = Some z -> int_min n sg <= z <= int_max n sg -> build (CInt n sg) ctx x = Ok (to_le n (z mod 256 ^ Z.of_nat n)).
Proof.
  intros Hx [H1 H2]. cbn [build]. unfold as_intr. rewrite Hx. cbn [bind]. apply Z.leb_le in H1, H2. rewrite H1, H2. cbn [andb]. now rewrite to_le_mod.
Qed.
Lemma int_parse n sg ctx s v r : (0 < n)%nat -> bytes s -> parse (CInt n sg) ctx s = Ok (v, r) ->
  exists z, v = VInt z /\ int_min n sg <= z <= int_max n sg /\ s = to_le n (z mod 256 ^ Z.of_nat n) ++ r.
Proof.
  intros Hn B H. cbn [parse] in H. apply bind_ok in H as ([a r'] & E & H). injection H as <- <-. apply take_ok in E as [-> L]. apply Forall_app in B as [Ba Br].
  pose proof (of_le_bound a Ba) as Hb. rewrite L in Hb. eexists. split; [reflexivity|].
  assert (Hp : 0 < 256 ^ Z.of_nat n) by (apply Z.pow_pos_nonneg; lia).
  assert (Hd : 256 ^ Z.of_nat n = 2 * 2 ^ (8 * Z.of_nat n - 1)).
  { rewrite pow2_256. replace (8 * Z.of_nat n) with (Z.succ (8 * Z.of_nat n - 1)) at 1 by lia. now rewrite Z.pow_succ_r by lia. }
  split.
  - apply int_range; [exact Hn|]. unfold int_of, to_signed. destruct sg; [|exact Hb]. rewrite <- pow2_256. destruct (Z.ltb_spec (of_le a) (2 ^ (8 * Z.of_nat n - 1))); lia.
  - f_equal. rewrite (le_of n a Ba L) at 1. rewrite to_le_mod. unfold int_of, to_signed. destruct sg; [|reflexivity]. rewrite <- pow2_256.
    destruct (Z.ltb_spec (of_le a) (2 ^ (8 * Z.of_nat n - 1))); [reflexivity|].
    rewrite <- (to_le_mod n (of_le a - _)). rewrite <- (to_le_mod n (of_le a)). f_equal. rewrite <- (Z.mod_add (of_le a - 256 ^ Z.of_nat n) 1) by lia. f_equal. lia.
Qed.
Lemma codes_same_out n sg t t' m z : codes_same n sg t t' = true -> In (m, z) t' -> by_value t z = Some (VEnum m z) /\ int_min n sg <= z <= int_max n sg.
Proof.
  intros H Hi. apply andb_true_iff in H as [H _]. rewrite forallb_forall in H. specialize (H _ Hi). cbn [fst snd] in H.
  destruct (by_value t z) as [[]|]; try discriminate. repeat (apply andb_true_iff in H as [H ?]). apply String.eqb_eq in H as ->. 
  repeat match goal with X : (_ =? _) = true |- _ => apply Z.eqb_eq in X | X : (_ <=? _) = true |- _ => apply Z.leb_le in X end. subst. auto.
Qed.
Lemma codes_same_in n sg t t' m z : codes_same n sg t t' = true -> by_value t z = Some (VEnum m z) -> In (m, z) t'.
Proof.
  intros H Hv. apply andb_true_iff in H as [_ H]. rewrite forallb_forall in H. apply in_table_of_ok. apply (H (m, z)). eapply by_value_in. exact Hv.
Qed.
Lemma tags_out k t l m z f : tags_ok k t l = true -> In (m, z, f) l -> by_value t z = Some (VEnum m z) /\ 0 <= z < 256 /\ lower m <> k.
Proof.
  intros H Hi. apply andb_true_iff in H as [H _]. rewrite forallb_forall in H. specialize (H _ Hi). cbn [fst snd] in H.
  destruct (by_value t z) as [[]|]; try discriminate. repeat (apply andb_true_iff in H as [H ?]). apply String.eqb_eq in H as ->.
  repeat match goal with X : (_ =? _) = true |- _ => apply Z.eqb_eq in X | X : (_ <=? _) = true |- _ => apply Z.leb_le in X | X : (_ <? _) = true |- _ => apply Z.ltb_lt in X end. subst.
  split; [reflexivity|]. split; [lia|]. intros E. rewrite E, String.eqb_refl in *. discriminate.
Qed.
Lemma tags_in k t l m z : tags_ok k t l = true -> by_value t z = Some (VEnum m z) -> exists f, In (m, z, f) l.
Proof.
  intros H Hv. apply andb_true_iff in H as [_ H]. rewrite forallb_forall in H. specialize (H _ (by_value_in _ _ _ _ Hv)). apply existsb_exists in H as ([[a b] f] & Hi & E).
  cbn [fst snd] in E. apply andb_true_iff in E as [E1 E2]. apply String.eqb_eq in E1 as ->. apply Z.eqb_eq in E2 as ->. eauto.
Qed.
Lemma enum_build t n sg ctx m z : by_value t z = Some (VEnum m z) -> int_min n sg <= z <= int_max n sg -> build (CAdapt (AEnum t) (CInt n sg)) ctx (VEnum m z) = Ok (to_le n (z mod 256 ^ Z.of_nat n)).
Proof.
  intros Hv Hr. rewrite build_adapt. cbn [encode]. unfold enum_encode. cbn [int_key as_int]. rewrite Hv. cbn [bind]. apply int_build; [reflexivity | exact Hr].
Qed.
Lemma enum_parse t n sg ctx s v r : (0 < n)%nat -> bytes s -> parse (CAdapt (AEnum t) (CInt n sg)) ctx s = Ok (v, r) ->
  exists m z, v = VEnum m z /\ by_value t z = Some (VEnum m z) /\ int_min n sg <= z <= int_max n sg /\ s = to_le n (z mod 256 ^ Z.of_nat n) ++ r.
Proof.
  intros Hn B H. rewrite parse_adapt in H. apply bind_ok in H as ([w r'] & E & H). apply bind_ok in H as (x & D & H). injection H as <- <-.
  apply int_parse in E as (z & -> & Hr & ->); try assumption. cbn [decode] in D. unfold enum_decode in D. cbn [as_int] in D. destruct (by_value t z) as [y|] eqn:Ey; [|discriminate]. injection D as <-.
  pose proof Ey as Ey'. apply by_value_enum in Ey' as (m & -> & _). exists m, z. auto.
Qed.
Lemma octet_le z : 0 <= z < 256 -> to_le 1 (z mod 256 ^ Z.of_nat 1) = [z].
Proof. intros H. rewrite to_le_mod. cbn [to_le]. now rewrite Z.mod_small. Qed.
Lemma octet_range : int_min 1 false = 0 /\ int_max 1 false = 255. Proof. split; reflexivity. Qed.

(** ** Words of bits *)
Lemma packed_range l d N : packed l d N -> 0 <= N < 2 ^ Z.of_nat (width l).
Proof.
  induction 1 as [|k w l z d N Hz _ IH]; [cbn; lia|]. cbn [width]. rewrite Nat2Z.inj_add, Z.pow_add_r by lia. nia.
Qed.
Lemma bits_sent bs l : form_bits bs l -> forall d N ctx obj, packed l d N -> (forall k x, In (k, x) d -> dget k obj = Some x) -> build_fields bs ctx obj = Ok (to_bits (width l) N).
Proof.
  induction 1 as [|k w fs l _ IH|k n fs l _ IH]; intros d N ctx obj P Ho; inversion P as [|k' w' l' z d' N' Hz P']; subst; [reflexivity| |].
  - cbn [build_fields]. unfold dgetr. rewrite (Ho k (VInt z)) by (now left). cbn [bind build as_intr as_int]. destruct (Z.ltb_spec z 0); [lia|]. cbn [andb bind].
    rewrite (IH d' N') by (auto; intros; apply Ho; now right). cbn [bind width]. f_equal. apply to_bits_app. exact (packed_range _ _ _ P').
  - cbn [build_fields]. unfold dgetr. rewrite (Ho k (VInt z)) by (now left). cbn [bind build as_intr as_int]. destruct (Z.ltb_spec z 0); [lia|].
    rewrite integer2bytes_small by (replace (8 * Z.of_nat n) with (Z.of_nat (8 * n)) by lia; exact Hz). cbn [bind]. rewrite bytes2bits_le.
    rewrite (IH d' N') by (auto; intros; apply Ho; now right). cbn [bind width]. f_equal. apply to_bits_app. exact (packed_range _ _ _ P').
Qed.
Lemma fresh_next (k : string) (v : val) l (obj : dict) : (forall j, In j (k :: l) -> dget j obj = None) -> ~ In k l -> forall j, In j l -> dget j (obj ++ [(k, v)]) = None.
Proof. intros Hf Hk j Hj. rewrite dget_app, Hf by (now right). cbn [dget]. destruct (String.eqb_spec j k); [subst; contradiction | reflexivity]. Qed.
Lemma bits_received bs l : form_bits bs l -> forall obj s d' r, bits s -> distinct (map fst l) = true -> (forall k, In k (map fst l) -> dget k obj = None) ->
  parse_fields bs obj s = Ok (d', r) -> exists d N, d' = obj ++ d /\ packed l d N /\ s = to_bits (width l) N ++ r /\ bits r.
Proof.
  induction 1 as [|k w fs l _ IH|k n fs l _ IH]; intros obj s d' r B Hd Hf H.
  - injection H as <- <-. exists [], 0. rewrite app_nil_r. repeat split; [constructor | exact B].
  - cbn [parse_fields parse] in H. apply bind_ok in H as ([v s1] & E & H). apply bind_ok in E as ([a s2] & T & E). injection E as <- <-. apply take_ok in T as [-> L]. apply Forall_app in B as [Ba Br].
    cbn [map fst distinct] in Hd. apply andb_true_iff in Hd as [Hk Hd]. apply negb_true_iff, existsb_string in Hk.
    rewrite dset_fresh in H by (apply Hf; now left).
    destruct (IH _ _ _ _ Br Hd (fresh_next _ _ _ _ Hf Hk) H) as (d & N & -> & P & -> & Br').
    pose proof (of_bits_bound a Ba) as Hb. rewrite L in Hb.
    exists ((k, VInt (of_bits a)) :: d), (of_bits a * 2 ^ Z.of_nat (width l) + N). split; [now rewrite <- app_assoc|]. split; [now constructor|]. split; [|exact Br'].
    cbn [width]. rewrite <- to_bits_app by exact (packed_range _ _ _ P). rewrite <- app_assoc. f_equal. rewrite <- L at 1. symmetry. now apply to_of_bits.
  - cbn [parse_fields parse] in H. apply bind_ok in H as ([v s1] & E & H). destruct (bits2bytes s) as [ob lo] eqn:Eb. apply bind_ok in E as ([v' s2] & T & E). injection E as <- <-.
    destruct (bits2bytes_spec s B _ _ Eb) as (-> & Bo & _). apply bind_ok in T as ([a s3] & T & E). injection E as <- <-. apply take_ok in T as [-> L]. apply Forall_app in B as [_ Blo]. apply Forall_app in Bo as [Ba Br].
    cbn [map fst distinct] in Hd. apply andb_true_iff in Hd as [Hk Hd]. apply negb_true_iff, existsb_string in Hk.
    rewrite dset_fresh in H by (apply Hf; now left).
    assert (Br2 : bits (bytes2bits s3 ++ lo)) by (apply Forall_app; split; [apply bytes2bits_bits | exact Blo]).
    destruct (IH _ _ _ _ Br2 Hd (fresh_next _ _ _ _ Hf Hk) H) as (d & N & -> & P & E & Br').
    assert (Bra : bytes (rev a)) by now apply Forall_rev. assert (Lr : length (rev a) = n) by now rewrite rev_length.
    pose proof (of_le_bound _ Bra) as Hb. rewrite Lr in Hb.
    exists ((k, VInt (of_le (rev a))) :: d), (of_le (rev a) * 2 ^ Z.of_nat (width l) + N). split; [now rewrite <- app_assoc|].
    split; [constructor; [replace (Z.of_nat (8 * n)) with (8 * Z.of_nat n) by lia; rewrite <- pow2_256; exact Hb | exact P]|]. split; [|exact Br'].
    cbn [width]. rewrite <- to_bits_app by exact (packed_range _ _ _ P). rewrite <- app_assoc. rewrite <- E. rewrite bytes2bits_app, <- app_assoc. f_equal.
    rewrite <- bytes2bits_le. rewrite <- (le_of n _ Bra Lr). now rewrite rev_involutive.
Qed.

(** ** Sending *)
Lemma enc_keys out e l d s : enc_fields out e l d s -> keys d = map fst l.
Proof. induction 1; cbn [keys map fst]; [reflexivity | f_equal; assumption | f_equal; assumption]. Qed.
Lemma enc_numbers out e l d s : enc_fields out e l d s -> forall obj, (forall k x, In (k, x) (e ++ d) -> dget k obj = Some x) ->
  forall k' k f, In (k', Items k f) l -> exists xs w, dget k' obj = Some (VList xs) /\ dget k obj = Some w /\ as_int w = Some (Z.of_nat (length xs)).
Proof.
  induction 1 as [e|e k f l x d a s _ _ IH|e k kc f l xs d a s w _ Hc Hw _ IH]; intros obj Ho k0 k1 f0 Hi; [destruct Hi| |].
  - destruct Hi as [E | Hi]; [discriminate|]. eapply IH; [|exact Hi]. intros k' x' H. apply Ho. rewrite <- app_assoc in H. exact H.
  - destruct Hi as [[= <- <- <-] | Hi].
    + exists xs, w. split; [apply Ho; apply in_or_app; right; now left|]. split; [|exact Hw]. apply Ho. apply in_or_app. left. now apply dget_In.
    + eapply IH; [|exact Hi]. intros k' x' H. apply Ho. rewrite <- app_assoc in H. exact H.
Qed.
Lemma list_sent c f ctx : (forall ctx v s, enc true f v s -> build c ctx v = Ok s) -> forall l s, enc_list true f l s -> build_list (build c ctx) l = Ok s.
Proof.
  intros IH l. induction l as [|x l IHl]; intros s H; inversion H; subst; [reflexivity|]. cbn [build_list]. rewrite (IH ctx x a) by assumption. cbn [bind]. rewrite (IHl s0) by assumption. reflexivity.
Qed.
Lemma case_in cs l : form_cases cs l -> forall m z f, In (m, z, f) l -> exists c, find_case z cs = Some (m, c) /\ form c f.
Proof.
  induction 1 as [|n z c f cs l Hc _ IH Hz]; intros m z0 f0 Hi; [destruct Hi|]. cbn [find_case]. destruct Hi as [[= -> -> ->] | Hi].
  - rewrite Z.eqb_refl. eauto.
  - destruct (Z.eqb_spec z0 z) as [->|]; [|eauto]. exfalso. rewrite <- not_true_iff_false in Hz. apply Hz. apply existsb_exists. exists (m, z, f0). split; [exact Hi | apply Z.eqb_refl].
Qed.
Definition sends (c : con) (f : fmt) : Prop := forall ctx v s, enc true f v s -> build c ctx v = Ok s.
Definition receives (c : con) (f : fmt) : Prop := forall ctx s v r, bytes s -> parse c ctx s = Ok (v, r) -> exists p, s = p ++ r /\ enc false f v p.
Definition sends_fields (L : list (string * field)) (fs : fields) (l : list (string * field)) : Prop :=
  forall e d s obj, enc_fields true e l d s -> (forall k x, In (k, x) (e ++ d) -> dget k obj = Some x) ->
    (forall k' k f, In (k', Items k f) L -> exists xs w, dget k' obj = Some (VList xs) /\ dget k obj = Some w /\ as_int w = Some (Z.of_nat (length xs))) ->
    build_fields fs obj obj = Ok s.
(** a field left out *)
Definition misses_fields (L : list (string * field)) (fs : fields) (l : list (string * field)) : Prop :=
  forall l' k f e d s obj, l = l' ++ [(k, Plain f)] -> enc_fields true e l' d s -> (forall k x, In (k, x) (e ++ d) -> dget k obj = Some x) ->
    (forall k' k f, In (k', Items k f) L -> exists xs w, dget k' obj = Some (VList xs) /\ dget k obj = Some w /\ as_int w = Some (Z.of_nat (length xs))) -> dget k obj = None ->
    (forall k' f', ~ In (k', Items k f') L) -> exists x, build_fields fs obj obj = Err x.
Definition receives_fields (fs : fields) (l : list (string * field)) : Prop :=
  forall obj s d' r, bytes s -> distinct (map fst l) = true -> (forall k, In k (map fst l) -> dget k obj = None) ->
    parse_fields fs obj s = Ok (d', r) -> exists d p, d' = obj ++ d /\ s = p ++ r /\ enc_fields false obj l d p.
Definition all_cases (P : con -> fmt -> Prop) (cs : cases) (l : list (string * Z * fmt)) : Prop :=
  forall m z f, In (m, z, f) l -> exists c, find_case z cs = Some (m, c) /\ P c f.
Lemma list_received c f : receives c f -> forall ctx n s l r, bytes s -> times_parse (parse c ctx) n s = Ok (l, r) -> exists p, s = p ++ r /\ enc_list false f l p /\ length l = n.
Proof.
  intros IH ctx n. induction n as [|n IHn]; intros s l r B H; cbn [times_parse] in H.
  - injection H as <- <-. exists []. repeat split. constructor.
  - apply bind_ok in H as ([x s1] & E & H). apply bind_ok in H as ([l' r'] & T & H). injection H as <- <-. destruct (IH _ _ _ _ B E) as (p & -> & Ex). apply Forall_app in B as [_ B].
    destruct (IHn _ _ _ B T) as (q & -> & El & Hl). exists (p ++ q). split; [apply app_assoc|]. split; [now constructor | cbn; congruence].
Qed.
Lemma greedy_received c f : receives c f -> forall ctx n s l r, bytes s -> greedy (parse c ctx) n s = Ok (l, r) -> exists p, s = p ++ r /\ enc_list false f l p.
Proof.
  intros IH ctx n. induction n as [|n IHn]; intros s l r B H; cbn [greedy] in H; [discriminate|]. destruct (parse c ctx s) as [[x s1]|e|] eqn:E; [| |discriminate].
  - destruct (Nat.ltb _ _); [|discriminate]. apply bind_ok in H as ([l' r'] & T & H). injection H as <- <-. destruct (IH _ _ _ _ B E) as (p & -> & Ex). apply Forall_app in B as [_ B].
    destruct (IHn _ _ _ B T) as (q & -> & El). exists (p ++ q). split; [apply app_assoc | now constructor].
  - injection H as <- <-. exists []. split; [reflexivity | constructor].
Qed.

(** ** The two theorems *)
Lemma sends_all : (forall c f, form c f -> sends c f) /\ (forall L fs l, form_fields L fs l -> sends_fields L fs l /\ misses_fields L fs l) /\
  (forall cs l, form_cases cs l -> all_cases sends cs l).
Proof.
  apply form_mutind; unfold sends.
  - intros n ctx v s H. inversion H; subst. rewrite (int_build n false ctx z (VInt z)); [now rewrite to_le_mod | reflexivity|]. unfold int_min, int_max. rewrite <- pow2_256. lia.
  - intros n Hn ctx v s H. inversion H; subst. apply int_build; [reflexivity|]. now apply int_range.
  - intros n sg t t' Hn Hs ctx v s H. inversion H; subst. destruct (codes_same_out _ _ _ _ _ _ Hs ltac:(eassumption)) as [Hv Hr]. now apply enum_build.
  - intros n ctx v s H. inversion H; subst. cbn [build]. now rewrite Nat.eqb_refl.
  - intros ctx v s H. inversion H; subst. cbn [build]. destruct (Z.ltb_spec (Z.of_nat (length l)) 256); [reflexivity | lia].
  - intros ctx v s H. inversion H as [| | | | | t l Hu Hl| | | | | | | | | | | | |]; subst. cbn [build]. rewrite Hu. destruct (Z.ltb_spec (Z.of_nat (length l)) 256); [reflexivity | lia].
  - intros ctx v s H. inversion H; subst. reflexivity.
  - intros n bs l Hb Hw Hd ctx v s H. inversion H as [| | | | | | |n' l' d N P| | | | | | | | | | |]; subst.
    assert (Hk : keys d = map fst l) by (clear - P; induction P; [reflexivity | cbn [keys map fst]; f_equal; assumption]).
    cbn [build as_dict bind]. rewrite (bits_sent _ _ Hb d N d d P).
    + cbn [bind]. rewrite Hw, bits2bytes_to_bits. cbn [bind]. now rewrite rev_involutive.
    + intros k x Hi. apply nodup_dget; [|exact Hi]. rewrite Hk. now apply distinct_NoDup.
  - intros c f _ IH ctx v s H. inversion H; subst. cbn [build iter]. destruct (Z.ltb_spec (Z.of_nat (length l)) 256); [|lia]. now rewrite (list_sent _ _ _ IH _ s0).
  - intros c f _ IH ctx v s H. inversion H; subst. cbn [build iter]. now apply list_sent with (f := f).
  - intros c f _ IH _ ctx v s H. inversion H; subst; [|discriminate]. rewrite build_adapt. cbn [encode bind build iter]. now apply list_sent with (f := f).
  - intros fs l _ [IH _] Hd ctx v s H. inversion H as [| | | | | | | | | | | |l' d s' He| | | | | |]; subst. cbn [build as_dict bind].
    assert (Ho : forall k x, In (k, x) ([] ++ d) -> dget k d = Some x).
    { intros k x Hi. apply nodup_dget; [|exact Hi]. rewrite (enc_keys _ _ _ _ _ He). now apply distinct_NoDup. }
    eapply IH; [exact He | exact Ho|]. eapply enc_numbers; eassumption.
  - intros fs1 fs2 l n1 n2 k f _ [IH1 IM] _ [IH2 _] D1 D2 D3 ctx v s H.
    pose proof D1 as D1'. cbn [distinct] in D1, D2. apply andb_true_iff in D1 as [N1 D1], D2 as [N2 D2]. apply negb_true_iff, existsb_string in N1, N2.
    apply distinct_NoDup in D1, D2.
    cbn [build build_alts]. inversion H as [| | | | | | | | | | | | |l1 m1 m2 k1 f1 d s' He|l1 m1 m2 k1 f1 d s' He| | | |]; subst.
    + pose proof (enc_keys _ _ _ _ _ He) as Hk. rewrite map_app in Hk. cbn [map fst] in Hk.
      assert (Ho : forall k x, In (k, x) ([] ++ d) -> dget k d = Some x) by (intros j x Hi; apply nodup_dget; [now rewrite Hk | exact Hi]).
      rewrite (dget_none n1 d) by (now rewrite Hk). cbn [as_dict bind]. rewrite (IH1 [] d s d He Ho) by (eapply enc_numbers; eassumption). reflexivity.
    + pose proof (enc_keys _ _ _ _ _ He) as Hk.
      assert (Ho : forall k x, In (k, x) ([] ++ d) -> dget k d = Some x) by (intros j x Hi; apply nodup_dget; [now rewrite Hk | exact Hi]).
      assert (Hn : dget k d = None). { apply dget_none. rewrite Hk. apply NoDup_remove_2 in D1. now rewrite app_nil_r in D1. }
      pose proof (enc_numbers _ _ _ _ _ He _ Ho) as Hc.
      rewrite (dget_none n1 d) by (rewrite Hk; intros C; apply N1; apply in_or_app; now left). cbn [as_dict bind].
      destruct (IM l k f [] d s d eq_refl He Ho) as (x & ->).
      * intros k' k0 f0 Hi. apply in_app_iff in Hi as [Hi | [Hi | []]]; [eauto | discriminate].
      * exact Hn.
      * intros k' f' Hi. apply in_app_iff in Hi as [Hi | [Hi | []]]; [|discriminate]. destruct (Hc _ _ _ Hi) as (xs & w & _ & C & _). congruence.
      * rewrite (dget_none n2 d) by (now rewrite Hk). cbn [as_dict bind]. rewrite (IH2 [] d s d He Ho Hc). reflexivity.
  - intros k o t cs l _ IH Ht Ho ctx v s H. inversion H as [| | | | | | | | | | | | | | |k' o' l' m z f x s' Hi He| | |]; subst. destruct (tags_out _ _ _ _ _ _ Ht Hi) as (Hv & Hr & _).
    cbn [build as_dict bind build_fields]. unfold dgetr. cbn [dget]. rewrite String.eqb_refl. cbn [bind]. rewrite Ho.
    assert (Ek : build (CAdapt (AEnum t) (CInt 1 false)) ctx (VEnum m z) = Ok [z]) by (rewrite enum_build by (auto; rewrite (proj1 octet_range), (proj2 octet_range); lia); now rewrite octet_le).
    cbn [build] in Ek. rewrite Ek. cbn [bind]. cbn [dset]. rewrite String.eqb_refl. cbn [dget]. rewrite String.eqb_refl, ?Ho. cbn [bind int_key as_int dget]. rewrite ?String.eqb_refl. cbn [bind int_key as_int].
    destruct (IH _ _ _ Hi) as (c & Hf & Hc). rewrite (build_case_of _ _ _ _ _ _ Hf). rewrite (Hc _ _ _ He). cbn [bind app]. now rewrite app_nil_r.
  - intros k t sw cs l _ IH Ht ctx v s H. inversion H as [| | | | | | | | | | | | | | | |k' l' m z f x s' Hi He| |]; subst. destruct (tags_out _ _ _ _ _ _ Ht Hi) as (Hv & Hr & Hn).
    cbn [build]. unfold dgetr. cbn [dget]. rewrite String.eqb_refl. cbn [bind int_key as_int]. rewrite Hv. destruct (String.eqb_spec (lower m) k) as [|_]; [contradiction|]. rewrite String.eqb_refl. cbn [bind].
    assert (Ek : build (CAdapt (AEnum t) (CInt 1 false)) ctx (VEnum m z) = Ok [z]) by (rewrite enum_build by (auto; rewrite (proj1 octet_range), (proj2 octet_range); lia); now rewrite octet_le).
    cbn [build] in Ek. rewrite Ek. cbn [bind].
    destruct (IH _ _ _ Hi) as (c & Hf & Hc). rewrite (build_case_of _ _ _ _ _ _ Hf). now rewrite (Hc _ _ _ He).
  - intros c P Hb _ _ _ ctx v s H. inversion H; subst. auto.
  - intros ctx v s H. inversion H as [| | | | | | | | | | | | | | | | | |x Hx Ho]; subst. cbn [build truthy]. specialize (Ho eq_refl). destruct (Z.eqb_spec x 0); cbn [negb]; do 2 f_equal; lia.
  - intros L. split; [|intros [|] ? ? ? ? ? ? E; discriminate]. intros e d s obj H _ _. inversion H; subst. reflexivity.
  - intros L k c f fs l _ IH _ [IH1 IH2]. split.
    + intros e d s obj H Ho Hc. inversion H; subst. cbn [build_fields]. unfold dgetr. rewrite (Ho k x) by (apply in_or_app; right; now left). cbn [bind].
      rewrite (IH _ _ _ ltac:(eassumption)). cbn [bind]. rewrite dset_same by (apply Ho; apply in_or_app; right; now left).
      erewrite IH1; [reflexivity | eassumption | | exact Hc]. intros k' x' Hi. apply Ho. rewrite <- app_assoc in Hi. exact Hi.
    + intros [|[k1 g] l'] k0 f0 e d s obj E He Ho Hc Hn Hx.
      * cbn [app] in E. injection E as -> -> ->. cbn [build_fields]. unfold dgetr. rewrite Hn. cbn [bind]. eauto.
      * cbn [app] in E. injection E as <- <- E. inversion He; subst. cbn [build_fields]. unfold dgetr. rewrite (Ho k x) by (apply in_or_app; right; now left). cbn [bind].
        rewrite (IH _ _ _ ltac:(eassumption)). cbn [bind]. rewrite dset_same by (apply Ho; apply in_or_app; right; now left).
        destruct (IH2 l' k0 f0 (e ++ [(k, x)]) d0 s0 obj eq_refl ltac:(eassumption)) as (er & ->); [intros k' x' Hi; apply Ho; rewrite <- app_assoc in Hi; exact Hi | exact Hc | exact Hn | exact Hx|]. cbn [bind]. eauto.
  - intros L k k' n f fs l Hin _ [IH1 IH2]. split.
    + intros e d s obj H Ho Hc. inversion H as [|? ? ? ? x ? ? ? Hx Hr|]; subst. inversion Hx; subst. destruct (Hc _ _ _ Hin) as (xs & w & Hl & Hk & Hw).
      assert (Ez : dget k obj = Some (VInt z)) by (apply Ho; apply in_or_app; right; now left). rewrite Ez in Hk. injection Hk as <-. cbn [as_int] in Hw. injection Hw as ->.
      cbn [build_fields]. cbn [eval]. unfold dgetr. rewrite Hl. cbn [bind vlen].
      rewrite (int_build n false obj (Z.of_nat (length xs)) (VInt (Z.of_nat (length xs)))) by (try reflexivity; unfold int_min, int_max; rewrite <- pow2_256; lia).
      rewrite to_le_mod. cbn [bind]. rewrite dset_same by exact Ez. erewrite IH1; [reflexivity | eassumption | | exact Hc]. intros j x' Hi. apply Ho. rewrite <- app_assoc in Hi. exact Hi.
    + intros [|[k1 g] l'] k0 f0 e d s obj E He Ho Hc Hn Hx.
      * cbn [app] in E. injection E as <- <- ->. exfalso. exact (Hx _ _ Hin).
      * cbn [app] in E. injection E as <- <- E. inversion He as [|? ? ? ? x ? ? ? Hx' Hr|]; subst. inversion Hx'; subst. destruct (Hc _ _ _ Hin) as (xs & w & Hl & Hk & Hw).
        assert (Ez : dget k obj = Some (VInt z)) by (apply Ho; apply in_or_app; right; now left). rewrite Ez in Hk. injection Hk as <-. cbn [as_int] in Hw. injection Hw as ->.
        cbn [build_fields]. cbn [eval]. unfold dgetr. rewrite Hl. cbn [bind vlen].
        rewrite (int_build n false obj (Z.of_nat (length xs)) (VInt (Z.of_nat (length xs)))) by (try reflexivity; unfold int_min, int_max; rewrite <- pow2_256; lia).
        cbn [bind]. rewrite dset_same by exact Ez.
        edestruct (IH2 l' k0 f0) as (er & ->); [reflexivity | exact Hr | intros j x' Hi; apply Ho; rewrite <- app_assoc in Hi; exact Hi | exact Hc | exact Hn | exact Hx|]. cbn [bind]. eauto.
  - intros L k kc c f fs l _ IH _ [IH1 IH2].
    assert (St : forall e d obj xs a w, enc_list true f xs a -> dget kc e = Some w -> as_int w = Some (Z.of_nat (length xs)) -> (forall k0 x, In (k0, x) (e ++ (k, VList xs) :: d) -> dget k0 obj = Some x) ->
       build_fields (FCons k (CArray (EGet kc) c) fs) obj obj = (let* b := build_fields fs obj obj in Ok (a ++ b))).
    { intros e d obj xs a w Hl Hk Hw Ho. cbn [build_fields build]. unfold dgetr. rewrite (Ho k (VList xs)) by (apply in_or_app; right; now left). cbn [bind].
      cbn [eval]. unfold dgetr. rewrite (Ho kc w) by (apply in_or_app; left; now apply dget_In). cbn [bind]. unfold as_intr. rewrite Hw. cbn [bind iter].
      rewrite Z.eqb_refl. destruct (Z.leb_spec 0 (Z.of_nat (length xs))); [|lia]. cbn [andb]. rewrite (list_sent _ _ obj IH _ _ Hl). cbn [bind].
      rewrite dset_same by (apply Ho; apply in_or_app; right; now left). reflexivity. }
    split.
    + intros e d s obj H Ho Hc. inversion H as [| |? ? ? ? ? xs d0 a s0 w Hl Hk Hw Hr]; subst. rewrite (St e d0 obj xs a w Hl Hk Hw Ho).
      erewrite IH1; [reflexivity | exact Hr | | exact Hc]. intros j x' Hi. apply Ho. rewrite <- app_assoc in Hi. exact Hi.
    + intros [|[k1 g] l'] k0 f0 e d s obj E He Ho Hc Hn Hx; [cbn [app] in E; discriminate|].
      cbn [app] in E. injection E as <- <- E. inversion He as [| |? ? ? ? ? xs d0 a s0 w Hl Hk Hw Hr]; subst. rewrite (St e d0 obj xs a w Hl Hk Hw Ho).
      edestruct (IH2 l' k0 f0) as (er & ->); [reflexivity | exact Hr | intros j x' Hi; apply Ho; rewrite <- app_assoc in Hi; exact Hi | exact Hc | exact Hn | exact Hx|]. cbn [bind]. eauto.
  - intros m z f [].
  - intros n z c f cs l _ IH _ IHc Hz m z0 f0 Hi. cbn [find_case]. destruct Hi as [[= -> -> ->] | Hi]; [rewrite Z.eqb_refl; eauto|].
    destruct (Z.eqb_spec z0 z) as [->|]; [|eauto]. exfalso. rewrite <- not_true_iff_false in Hz. apply Hz. apply existsb_exists. exists (m, z, f0). split; [exact Hi | apply Z.eqb_refl].
Qed.
Lemma num_fmt_int f v s : num_fmt f = true -> enc false f v s -> exists z, as_int v = Some z.
Proof. intros Hf H. destruct f; try discriminate; inversion H; subst; eexists; reflexivity. Qed.
Lemma enc_list_in out f l s : enc_list out f l s -> forall x, In x l -> exists a, enc out f x a.
Proof. induction 1 as [|f x l a s Hx _ IH]; intros y Hy; [destruct Hy|]. destruct Hy as [<- | Hy]; eauto. Qed.
Lemma num_eq x y z : as_int x = Some z -> (exists w, as_int y = Some w) -> val_num_eqb x y = true -> as_int y = as_int x.
Proof.
  intros Hx (w & Hw) H. rewrite Hx, Hw. unfold val_num_eqb in H.
  assert (N : forall a b, as_int a = Some b -> num_of a = Some (inject_Z b)) by (intros a b; destruct a; cbn; try discriminate; intros [= <-]; reflexivity).
  rewrite (N _ _ Hx), (N _ _ Hw) in H. apply Qeq_bool_iff in H. apply -> inject_Z_injective in H. congruence.
Qed.
Lemma dedup_spec l : (forall x, In x l -> exists z, as_int x = Some z) ->
  (forall x, In x (dedup l) -> In x l) /\ (forall x, In x l -> exists y, In y (dedup l) /\ as_int y = as_int x).
Proof.
  induction l as [|x l IH]; intros H; [split; intros ? []|]. destruct IH as [I1 I2]; [intros; apply H; now right|]. cbn [dedup]. split.
  - intros y [-> | Hy]; [now left|]. apply filter_In in Hy as [Hy _]. right. auto.
  - intros y [<- | Hy]; [exists x; split; [now left | reflexivity]|]. destruct (I2 y Hy) as (w & Hw & Ew).
    destruct (val_num_eqb x w) eqn:E; [|exists w; split; [right; apply filter_In; split; [exact Hw | now rewrite E] | exact Ew]].
    exists x. split; [now left|]. destruct (H x (or_introl eq_refl)) as (zx & Hx). destruct (H w (or_intror (I1 _ Hw))) as (zw & Hz). rewrite <- Ew. symmetry. eapply num_eq; eauto.
Qed.
Lemma receives_all : (forall c f, form c f -> receives c f) /\ (forall L fs l, form_fields L fs l -> receives_fields fs l) /\
  (forall cs l, form_cases cs l -> all_cases receives cs l).
Proof.
  apply form_mutind; unfold receives.
  - intros n ctx s v r B H. cbn [parse] in H. apply bind_ok in H as ([a r'] & E & H). injection H as <- <-. apply take_ok in E as [-> L]. apply Forall_app in B as [Ba _].
    exists a. split; [reflexivity|]. rewrite (le_of n a Ba L) at 2. constructor. rewrite <- L. now apply of_le_bound.
  - intros n Hn ctx s v r B H. apply int_parse in H as (z & -> & Hr & ->); try assumption. eexists. split; [reflexivity|]. constructor. now apply (int_range n true z Hn).
  - intros n sg t t' Hn Hs ctx s v r B H. apply enum_parse in H as (m & z & -> & Hv & Hr & ->); try assumption. eexists. split; [reflexivity|]. constructor. eapply codes_same_in; eassumption.
  - intros n ctx s v r B H. cbn [parse] in H. apply bind_ok in H as ([a r'] & E & H). injection H as <- <-. apply take_ok in E as [-> L]. apply Forall_app in B as [Ba _].
    exists a. split; [reflexivity|]. rewrite (le_of n a Ba L) at 2. constructor. rewrite <- L. now apply of_le_bound.
  - intros ctx s v r B H. cbn [parse] in H. destruct s as [|n s]; [discriminate|]. apply bind_ok in H as ([a r'] & E & H). injection H as <- <-. apply take_ok in E as [-> L].
    inversion B as [|? ? Hb _]; subst. unfold isbyte in Hb. exists (n :: a). split; [reflexivity|]. replace n with (Z.of_nat (length a)) by lia. constructor. lia.
  - intros ctx s v r B H. cbn [parse] in H. destruct s as [|n s]; [discriminate|]. apply bind_ok in H as ([a r'] & E & H). apply take_ok in E as [-> L]. destruct (utf8_decode a) as [t|] eqn:Et; [|discriminate]. injection H as <- <-.
    inversion B as [|? ? Hb Bs]; subst. apply Forall_app in Bs as [Ba _]. unfold isbyte in Hb. exists (n :: a). split; [reflexivity|]. replace n with (Z.of_nat (length a)) by lia. constructor; [|lia].
    now apply C39_utf8_encode_decode.
  - intros ctx s v r B H. cbn [parse] in H. injection H as <- <-. exists s. split; [now rewrite app_nil_r | constructor].
  - intros n bs l Hb Hw Hd ctx s v r B H. cbn [parse] in H. apply bind_ok in H as ([a r'] & E & H). apply take_ok in E as [-> L]. apply Forall_app in B as [Ba _].
    apply bind_ok in H as ([v' r''] & E & H). destruct r'' as [|? ?]; [|discriminate]. injection H as -> ->.
    apply bind_ok in E as ([v2 r2] & E & H). apply bind_ok in E as ([d' r3] & E & H'). injection H' as <- <-.
    destruct (bits_received _ _ Hb [] _ _ _ (bytes2bits_bits _) Hd (fun _ _ => eq_refl) E) as (d & N & -> & P & Es & Br).
    destruct (bits2bytes r3) as [r4 lo] eqn:Eb. destruct lo; [|discriminate]. injection H as <- ->. 
    assert (Lr : length r3 = 0%nat). { apply (f_equal (@length Z)) in Es. rewrite app_length, bytes2bits_length, rev_length, to_bits_length, Hw, L in Es. lia. }
    destruct r3; [|discriminate]. rewrite app_nil_r in Es. exists a. split; [reflexivity|]. cbn [app].
    replace a with (to_le n N); [now constructor|]. rewrite Hw, <- bytes2bits_le in Es. apply (f_equal bits2bytes) in Es.
    rewrite !bits2bytes_bytes2bits' in Es by (apply Forall_rev; auto; apply to_le_bytes). injection Es as Es. apply (f_equal (@rev Z)) in Es. now rewrite !rev_involutive in Es.
  - intros c f _ IH ctx s v r B H. cbn [parse] in H. destruct s as [|n s]; [discriminate|]. apply bind_ok in H as ([l r'] & E & H). injection H as <- <-.
    inversion B as [|? ? Hb Bs]; subst. destruct (list_received _ _ IH _ _ _ _ _ Bs E) as (p & -> & He & Hl). unfold isbyte in Hb.
    exists (n :: p). split; [reflexivity|]. replace n with (Z.of_nat (length l)) by lia. constructor; [exact He | lia].
  - intros c f _ IH ctx s v r B H. cbn [parse] in H. apply bind_ok in H as ([l r'] & E & H). injection H as <- <-. destruct (greedy_received _ _ IH _ _ _ _ _ B E) as (p & -> & He). exists p. split; [reflexivity | now constructor].
  - intros c f _ IH Hf ctx s v r B H. rewrite parse_adapt in H. apply bind_ok in H as ([w r'] & E & H). apply bind_ok in H as (x & D & H). injection H as <- <-.
    cbn [parse] in E. apply bind_ok in E as ([l r0] & E & H). injection H as <- <-. destruct (greedy_received _ _ IH _ _ _ _ _ B E) as (p & -> & He). exists p. split; [reflexivity|].
    cbn [decode set_decode] in D. injection D as <-. destruct (dedup_spec l) as [D1 D2].
    { intros y Hy. destruct (enc_list_in _ _ _ _ He _ Hy) as (a & Ha). eapply num_fmt_int; eassumption. }
    eapply enc_set_in; eauto.
  - intros fs l _ IH Hd ctx s v r B H. cbn [parse] in H. apply bind_ok in H as ([d' r'] & E & H). injection H as <- <-.
    destruct (IH [] _ _ _ B Hd (fun _ _ => eq_refl) E) as (d & p & -> & -> & He). exists p. split; [reflexivity|]. now constructor.
  - intros fs1 fs2 l n1 n2 k f _ IH1 _ IH2 D1 D2 D3 ctx s v r B H. cbn [parse parse_alts] in H.
    cbn [distinct] in D1, D2, D3. apply andb_true_iff in D1 as [_ D1], D2 as [_ D2], D3 as [N3 _]. apply negb_true_iff, existsb_string in N3.
    destruct (bind (bind (parse_fields fs1 [] s) _) _) as [[v1 r1]| |] eqn:E1 in H; [| |discriminate].
    + injection H as -> ->. apply bind_ok in E1 as ([v2 r2] & E1 & H). apply bind_ok in E1 as ([d' r3] & E1 & H'). injection H' as <- <-. injection H as <- <-.
      destruct (IH1 [] _ _ _ B ltac:(rewrite map_app; exact D1) (fun _ _ => eq_refl) E1) as (d & p & -> & -> & He). exists p. split; [reflexivity|]. cbn [app].
      pose proof (enc_keys _ _ _ _ _ He) as Hk. rewrite map_app in Hk. rewrite dset_fresh by (apply dget_none; rewrite Hk; exact N3).
      apply (enc_long false l n1 n2 k f d p He).
    + destruct (bind (bind (parse_fields fs2 [] s) _) _) as [[v1 r1]| |] eqn:E2 in H; try discriminate.
      injection H as -> ->. apply bind_ok in E2 as ([v2 r2] & E2 & H). apply bind_ok in E2 as ([d' r3] & E2 & H'). injection H' as <- <-. injection H as <- <-.
      destruct (IH2 [] _ _ _ B D2 (fun _ _ => eq_refl) E2) as (d & p & -> & -> & He). exists p. split; [reflexivity|]. cbn [app].
      pose proof (enc_keys _ _ _ _ _ He) as Hk. rewrite dset_fresh by (apply dget_none; rewrite Hk; intros C; apply N3; apply in_or_app; now left).
      apply (enc_short false l n1 n2 k f d p He).
  - intros k o t cs l _ IH Ht Ho ctx s v r B H. cbn [parse] in H. apply bind_ok in H as ([d' r'] & E & H). injection H as <- <-.
    cbn [parse_fields] in E. apply bind_ok in E as ([kv s1] & Ek & E). apply enum_parse in Ek as (m & z & -> & Hv & Hr & ->); [|lia | exact B]. rewrite octet_le in B by (unfold int_min, int_max in Hr; cbn in Hr; lia). rewrite octet_le by (unfold int_min, int_max in Hr; cbn in Hr; lia).
    destruct (tags_in _ _ _ _ _ Ht Hv) as (f & Hi). destruct (IH _ _ _ Hi) as (c & Hf & Hc). inversion B as [|? ? _ B1]; subst.
    cbn [dset] in E. cbn [parse] in E. unfold dgetr in E. cbn [dget] in E. rewrite String.eqb_refl in E. cbn [bind int_key as_int] in E.
    apply bind_ok in E as ([x s2] & E & H). rewrite (parse_case_of _ _ _ _ _ _ Hf) in E. destruct (Hc _ _ _ _ B1 E) as (p & -> & He). rewrite Ho in H. injection H as <- <-.
    exists (z :: p). split; [reflexivity|]. econstructor; eassumption.
  - intros k t sw cs l _ IH Ht ctx s v r B H. cbn [parse] in H. apply bind_ok in H as ([kv s1] & Ek & E).
    change (parse (CAdapt (AEnum t) (CInt 1 false)) [] s = Ok (kv, s1)) in Ek.
    apply enum_parse in Ek as (m & z & -> & Hv & Hr & ->); [|lia | exact B]. rewrite octet_le in B by (unfold int_min, int_max in Hr; cbn in Hr; lia). rewrite octet_le by (unfold int_min, int_max in Hr; cbn in Hr; lia).
    destruct (tags_in _ _ _ _ _ Ht Hv) as (f & Hi). destruct (tags_out _ _ _ _ _ _ Ht Hi) as (_ & _ & Hn). destruct (IH _ _ _ Hi) as (c & Hf & Hc). inversion B as [|? ? _ B1]; subst.
    apply bind_ok in E as ([x s2] & E & H). rewrite (parse_case_of _ _ _ _ _ _ Hf) in E. destruct (Hc _ _ _ _ B1 E) as (p & -> & He). cbn [dset] in H.
    destruct (String.eqb_spec (lower m) k); [contradiction|]. injection H as <- <-.
    exists (z :: p). split; [reflexivity|]. econstructor; eassumption.
  - intros c P _ Hp _ _ ctx s v r B H. destruct (Hp _ _ _ _ B H) as (p & -> & He). exists p. split; [reflexivity | now constructor].
  - intros ctx s v r B H. cbn [parse] in H. destruct s as [|x s]; [discriminate|]. injection H as <- <-. inversion B as [|? ? Hx _]; subst. exists [x]. split; [reflexivity|]. constructor; [exact Hx | discriminate].
  - intros L obj s d' r B _ _ H. injection H as <- <-. exists [], []. rewrite app_nil_r. repeat split. constructor.
  - intros L k c f fs l _ IH _ IHf obj s d' r B Hd Hf H. cbn [map fst distinct] in Hd. apply andb_true_iff in Hd as [Hk Hd]. apply negb_true_iff, existsb_string in Hk.
    cbn [parse_fields] in H. apply bind_ok in H as ([v s1] & E & H). destruct (IH _ _ _ _ B E) as (p & -> & He). apply Forall_app in B as [_ B]. rewrite dset_fresh in H by (apply Hf; now left).
    destruct (IHf _ _ _ _ B Hd (fresh_next _ _ _ _ Hf Hk) H) as (d & q & -> & -> & Hr). exists ((k, v) :: d), (p ++ q). split; [now rewrite <- app_assoc|]. split; [apply app_assoc | now constructor].
  - intros L k k' n f fs l _ _ IHf obj s d' r B Hd Hf H. cbn [map fst distinct] in Hd. apply andb_true_iff in Hd as [Hk Hd]. apply negb_true_iff, existsb_string in Hk.
    cbn [parse_fields] in H. apply bind_ok in H as ([v s1] & E & H). cbn [parse] in E. apply bind_ok in E as ([a r'] & E & H'). injection H' as <- <-. apply take_ok in E as [-> L']. apply Forall_app in B as [Ba B].
    rewrite dset_fresh in H by (apply Hf; now left).
    destruct (IHf _ _ _ _ B Hd (fresh_next _ _ _ _ Hf Hk) H) as (d & q & -> & -> & Hr). eexists ((k, _) :: d), (a ++ q). split; [rewrite <- app_assoc; reflexivity|]. split; [apply app_assoc|]. constructor; [|exact Hr].
    rewrite (le_of n a Ba L') at 2. constructor. rewrite <- L'. now apply of_le_bound.
  - intros L k kc c f fs l _ IH _ IHf obj s d' r B Hd Hf H. cbn [map fst distinct] in Hd. apply andb_true_iff in Hd as [Hk Hd]. apply negb_true_iff, existsb_string in Hk.
    cbn [parse_fields] in H. apply bind_ok in H as ([v s1] & E & H). cbn [parse eval] in E. unfold dgetr in E. destruct (dget kc obj) as [w|] eqn:Ew; [|discriminate]. cbn [bind] in E.
    apply bind_ok in E as (n & En & E). destruct (Z.ltb_spec n 0); [discriminate|]. apply bind_ok in E as ([xs r'] & E & H'). injection H' as <- <-.
    destruct (list_received _ _ IH _ _ _ _ _ B E) as (p & -> & He & Hl). apply Forall_app in B as [_ B]. rewrite dset_fresh in H by (apply Hf; now left).
    destruct (IHf _ _ _ _ B Hd (fresh_next _ _ _ _ Hf Hk) H) as (d & q & -> & -> & Hr). exists ((k, VList xs) :: d), (p ++ q). split; [rewrite <- app_assoc; reflexivity|]. split; [apply app_assoc|].
    apply (enc_items false obj k kc f l xs d p q w He Ew); [|exact Hr]. unfold as_intr in En. destruct (as_int w); [injection En as ->|discriminate]. f_equal. lia.
  - intros m z f [].
  - intros n z c f cs l _ IH _ IHc Hz m z0 f0 Hi. cbn [find_case]. destruct Hi as [[= -> -> ->] | Hi]; [rewrite Z.eqb_refl; eauto|].
    destruct (Z.eqb_spec z0 z) as [->|]; [|eauto]. exfalso. rewrite <- not_true_iff_false in Hz. apply Hz. apply existsb_exists. exists (m, z, f0). split; [exact Hi | apply Z.eqb_refl].
Qed.

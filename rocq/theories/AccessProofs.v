(** * AccessProofs: the opcode field and the AccessMessage entry point. *)
From Verif Require Import PyVal Bits Utf8 Adapters Construct Size Spec Master
  AdapterSpec AdapterProofs1 AdapterProofs4 Access.

(** ** Opcode encodings, written down independently of the code (Mesh Profile 3.7.3.1):
    one byte 0xxxxxxx except 01111111, two bytes 10xxxxxx, three bytes 11xxxxxx. *)
Inductive opcode_bytes : Z -> list Z -> Prop :=
| ob1 a : 0 <= a < 0x7F -> opcode_bytes a [a]
| ob2 a b : 0x80 <= a < 0xC0 -> 0 <= b < 256 -> opcode_bytes (a * 256 + b) [a; b]
| ob3 a b c : 0xC0 <= a < 256 -> 0 <= b < 256 -> 0 <= c < 256 ->
    opcode_bytes (a * 65536 + b * 256 + c) [a; b; c].

Lemma opcode_bytes_legal z o : opcode_bytes z o -> legal_opcode z.
Proof. unfold legal_opcode. intros [|? ? ? ?|? ? ? ? ? ?]; lia. Qed.

Lemma opcode_bytes_bytes z o : opcode_bytes z o -> bytes o.
Proof. intros H. destruct H; repeat constructor; unfold isbyte; lia. Qed.

Lemma opcode_bytes_nonempty z o : opcode_bytes z o -> o <> [].
Proof. now destruct 1. Qed.

Lemma opcode_bytes_build z o : opcode_bytes z o -> opcode_build z = Ok o.
Proof.
  unfold opcode_build. intros H. destruct H as [a Ha|a b Ha Hb|a b c Ha Hb Hc].
  - destruct (Z.gtb_spec a 65535); [lia|]. destruct (Z.gtb_spec a 255); [lia|]. destruct (Z.leb_spec 0 a); [reflexivity|lia].
  - destruct (Z.gtb_spec (a * 256 + b) 65535); [lia|]. destruct (Z.gtb_spec (a * 256 + b) 255); [|lia].
    assert ((a * 256 + b) / 256 = a) as -> by (symmetry; apply Z.div_unique with (r := b); lia).
    assert ((a * 256 + b) mod 256 = b) as -> by (symmetry; apply Z.mod_unique with (q := a); lia). reflexivity.
  - destruct (Z.gtb_spec (a * 65536 + b * 256 + c) 65535); [|lia].
    destruct (Z.ltb_spec (a * 65536 + b * 256 + c) 16777216); [|lia].
    assert ((a * 65536 + b * 256 + c) / 65536 = a) as -> by (symmetry; apply Z.div_unique with (r := b * 256 + c); lia).
    assert ((a * 65536 + b * 256 + c) / 256 = a * 256 + b) as -> by (symmetry; apply Z.div_unique with (r := c); lia).
    assert ((a * 256 + b) mod 256 = b) as -> by (symmetry; apply Z.mod_unique with (q := a); lia).
    assert ((a * 65536 + b * 256 + c) mod 256 = c) as -> by (symmetry; apply Z.mod_unique with (q := a * 256 + b); lia).
    reflexivity.
Qed.

Lemma opcode_bytes_parse z o r : opcode_bytes z o -> opcode_parse (o ++ r) = Ok (z, r).
Proof.
  intros H. destruct H as [a Ha|a b Ha Hb|a b c Ha Hb Hc]; cbn [app opcode_parse];
    (destruct (Z.eqb_spec a 127); [lia|]); (destruct (Z.ltb_spec a 128); try lia); auto;
    destruct (Z.ltb_spec a 192); try lia; auto. do 2 f_equal. lia.
Qed.

Lemma legal_opcode_bytes z : legal_opcode z -> exists o, opcode_bytes z o.
Proof.
  intros [H|[H|H]].
  - exists [z]. constructor. lia.
  - exists [z / 256; z mod 256]. rewrite (Z.div_mod z 256) at 1 by lia. rewrite Z.mul_comm.
    pose proof (Z.mod_pos_bound z 256).
    constructor; [|lia]. split; [apply Z.div_le_lower_bound | apply Z.div_lt_upper_bound]; lia.
  - exists [z / 65536; z / 256 mod 256; z mod 256].
    replace z with (z / 65536 * 65536 + z / 256 mod 256 * 256 + z mod 256) at 1.
    + pose proof (Z.mod_pos_bound z 256). pose proof (Z.mod_pos_bound (z / 256) 256).
      constructor; lia.
    + replace 65536 with (256 * 256) by reflexivity. rewrite <- Z.div_div by lia.
      pose proof (Z.div_mod z 256). pose proof (Z.div_mod (z / 256) 256). lia.
Qed.

Lemma opcode_parse_bytes s z r : bytes s -> opcode_parse s = Ok (z, r) -> exists o, s = o ++ r /\ opcode_bytes z o.
Proof.
  intros Hb H. destruct s as [|a s]; [discriminate|]. inversion_clear Hb as [|? ? Ha Hs]. unfold isbyte in Ha.
  cbn [opcode_parse] in H. destruct (Z.eqb_spec a 127); [discriminate|]. destruct (Z.ltb_spec a 128).
  { injection H as <- <-. exists [a]. split; [reflexivity|]. constructor. lia. }
  destruct s as [|b s]; [discriminate|]. inversion_clear Hs as [|? ? Hb' Hs']. unfold isbyte in Hb'.
  destruct (Z.ltb_spec a 192).
  { injection H as <- <-. exists [a; b]. split; [reflexivity|]. constructor; lia. }
  destruct s as [|c s]; [discriminate|]. inversion_clear Hs' as [|? ? Hc Hs]. unfold isbyte in Hc.
  injection H as <- <-. exists [a; b; c]. split; [reflexivity|].
  replace ((a * 256 + b) * 256 + c) with (a * 65536 + b * 256 + c) by lia. constructor; lia.
Qed.

Theorem opcode_prefix_free z1 o1 r1 z2 o2 r2 : opcode_bytes z1 o1 -> opcode_bytes z2 o2 ->
  o1 ++ r1 = o2 ++ r2 -> z1 = z2 /\ o1 = o2 /\ r1 = r2.
Proof.
  intros H1 H2 E. pose proof (opcode_bytes_parse _ _ r1 H1) as P1. pose proof (opcode_bytes_parse _ _ r2 H2) as P2.
  rewrite E, P2 in P1. injection P1 as -> ->. apply opcode_bytes_build in H1, H2. rewrite H1 in H2. injection H2 as ->. auto.
Qed.

(** ** Dispatch *)
(** the message families: enum of opcodes and message declaration, as AccessMessage lists them *)
Definition family (t : enum) (c : con) : Prop := In (t, c) access_table.

Fixpoint nodupz (l : list Z) : bool :=
  match l with [] => true | x :: l' => negb (existsb (Z.eqb x) l') && nodupz l' end.
Lemma nodupz_spec l : nodupz l = true -> NoDup l.
Proof.
  induction l as [|x l IH]; cbn [nodupz]; [constructor|]. intros H. apply andb_prop in H as [H1 H2].
  constructor; [|auto]. intros Hin. apply negb_true_iff in H1. rewrite <- not_true_iff_false in H1. apply H1.
  apply existsb_exists. exists x. split; [exact Hin|]. apply Z.eqb_refl.
Qed.

Definition all_values (l : list (enum * con)) : list Z := flat_map (fun p => map snd (fst p)) l.
Definition all_names (l : list (enum * con)) : list string := flat_map (fun p => map fst (fst p)) l.

Lemma access_values_NoDup : NoDup (all_values access_table).
Proof. apply nodupz_spec. vm_compute. reflexivity. Qed.
Lemma access_names_NoDup : NoDup (all_names access_table).
Proof. apply distinct_NoDup. vm_compute. reflexivity. Qed.

Definition legal_opcodeb (z : Z) : bool :=
  ((0 <=? z) && (z <? 0x7F)) || ((0x8000 <=? z) && (z <? 0xC000)) || ((0xC00000 <=? z) && (z <? 0x1000000)).
Lemma access_legal : Forall legal_opcode (all_values access_table).
Proof.
  assert (H : forallb legal_opcodeb (all_values access_table) = true) by (vm_compute; reflexivity).
  rewrite forallb_forall in H. apply Forall_forall. intros z Hz. apply H in Hz. unfold legal_opcodeb, legal_opcode in *.
  lia.
Qed.

Lemma NoDup_app {A} (a b : list A) : NoDup (a ++ b) -> NoDup a /\ NoDup b /\ forall x, In x a -> ~ In x b.
Proof.
  induction a as [|x a IH]; simpl; intros H; [repeat split; auto; constructor|].
  inversion_clear H as [|? ? Hx Hr]. destruct (IH Hr) as (Ha & Hb & Hd). repeat split; auto.
  - constructor; auto. intros Hin; apply Hx, in_or_app; auto.
  - intros y [<-|Hy]; [intros Hin; apply Hx, in_or_app; auto | auto].
Qed.

Lemma by_value_none t z : ~ In z (map snd t) -> by_value t z = None.
Proof.
  induction t as [|[n w] t IH]; simpl; [reflexivity|]. intros H. destruct (Z.eqb_spec z w); [exfalso; apply H; left; auto|].
  apply IH. intros Hin; apply H; auto.
Qed.
Lemma by_value_in t n z w : by_value t z = Some (VEnum n w) -> w = z /\ In (n, z) t.
Proof. intros H. apply by_value_enum in H as (n' & E & Hin). injection E as -> ->. auto. Qed.
Lemma member_in t n z : member t n z -> In (n, z) t.
Proof. intros (t1 & t2 & -> & _). apply in_or_app. right. left. reflexivity. Qed.
Lemma in_member t n z : NoDup (map snd t) -> In (n, z) t -> member t n z.
Proof.
  intros Hnd Hin. apply in_split in Hin as (t1 & t2 & ->). exists t1, t2. split; [reflexivity|].
  rewrite map_app in Hnd. apply NoDup_app in Hnd as (_ & _ & Hd). intros Hin. apply (Hd z Hin). now left.
Qed.

Lemma access_lookup_in_spec l : NoDup (all_values l) -> forall t c n z, In (t, c) l -> member t n z ->
  access_lookup_in l z = Some (VEnum n z, c).
Proof.
  induction l as [|[t' c'] l IH]; intros Hnd t c n z Hin Hm; [destruct Hin|].
  cbn [all_values flat_map fst] in Hnd. apply NoDup_app in Hnd as (H1 & H2 & Hd). cbn [access_lookup_in].
  destruct Hin as [E|Hin].
  - injection E as -> ->. assert (access_lookup_in l z = None) as ->.
    { assert (Hz : ~ In z (all_values l)) by (apply Hd, (in_map snd _ (n, z)), member_in; auto).
      clear - Hz. induction l as [|[t c] l IH]; [reflexivity|]. cbn [access_lookup_in all_values flat_map fst] in *.
      rewrite IH by (intros Hin; apply Hz, in_or_app; auto). rewrite by_value_none by (intros Hin; apply Hz, in_or_app; auto).
      reflexivity. }
    now rewrite (member_by_value _ _ _ Hm).
  - now rewrite (IH H2 _ _ _ _ Hin Hm).
Qed.
Lemma access_lookup_in_inv l z m c : access_lookup_in l z = Some (m, c) ->
  exists t n, In (t, c) l /\ member t n z /\ m = VEnum n z.
Proof.
  induction l as [|[t' c'] l IH]; cbn [access_lookup_in]; [discriminate|].
  destruct (access_lookup_in l z) as [[m1 c1]|].
  - intros [= -> ->]. destruct (IH eq_refl) as (t & n & Hin & H). exists t, n. split; [right; exact Hin | exact H].
  - destruct (by_value t' z) as [m2|] eqn:E; [|discriminate]. intros [= -> ->].
    destruct (by_value_enum _ _ _ E) as (n & -> & _). apply by_value_member in E. exists t', n. split; [now left|auto].
Qed.

Theorem access_lookup_spec z m c :
  access_lookup z = Some (m, c) <-> exists t n, family t c /\ member t n z /\ m = VEnum n z.
Proof.
  split; [apply access_lookup_in_inv|]. intros (t & n & Hf & Hm & ->).
  eapply access_lookup_in_spec; eauto. exact access_values_NoDup.
Qed.

Lemma member_named_none t all s : ~ In s (map cps (map fst all)) -> member_named t all s = None.
Proof.
  intros Hs. induction t as [|[n z] t IH]; [reflexivity|]. cbn [member_named].
  destruct (by_value all z) as [m|] eqn:E; [|exact IH]. destruct (by_value_enum _ _ _ E) as (n' & -> & Hin).
  destruct (zlist_eqb s (cps n')) eqn:Es; [|exact IH]. apply zlist_eqb_spec in Es. subst s. exfalso. apply Hs.
  apply in_map, (in_map fst _ (n', z)), Hin.
Qed.
Lemma member_named_spec t all n z : NoDup (map fst all) -> member all n z -> (forall p, In p t -> In p all) -> In (n, z) t ->
  member_named t all (cps n) = Some (VEnum n z).
Proof.
  intros Hnd Hm. induction t as [|[n' z'] t IH]; intros Hsub Hin; [destruct Hin|]. cbn [member_named].
  destruct (by_value all z') as [m|] eqn:E.
  - destruct (by_value_enum _ _ _ E) as (n2 & -> & Hin2). destruct (zlist_eqb (cps n) (cps n2)) eqn:Es.
    + apply zlist_eqb_spec, cps_inj in Es. subst n2. apply member_in in Hm. f_equal.
      assert (z' = z); [|now subst]. clear - Hnd Hm Hin2.
      apply in_split in Hm as (a & b & ->). rewrite map_app in Hnd. simpl in Hnd.
      apply NoDup_remove_2 in Hnd. apply in_app_or in Hin2 as [Hi|[[= <-]|Hi]]; auto; exfalso; apply Hnd, in_or_app;
        [left|right]; apply (in_map fst _ (n, z') Hi).
    + destruct Hin as [[= -> ->]|Hin].
      * rewrite (member_by_value _ _ _ Hm) in E. injection E as ->. rewrite (proj2 (zlist_eqb_spec _ _) eq_refl) in Es. discriminate.
      * apply IH; auto. intros p Hp; apply Hsub; now right.
  - destruct Hin as [[= -> ->]|Hin].
    + rewrite (member_by_value _ _ _ Hm) in E. discriminate.
    + apply IH; auto. intros p Hp; apply Hsub; now right.
Qed.

Lemma access_by_name_in_spec l : NoDup (all_names l) -> forall t c n z, In (t, c) l -> member t n z ->
  access_by_name_in l (cps n) = Some (VEnum n z, c).
Proof.
  induction l as [|[t' c'] l IH]; intros Hnd t c n z Hin Hm; [destruct Hin|].
  cbn [all_names flat_map fst] in Hnd. apply NoDup_app in Hnd as (H1 & H2 & Hd). cbn [access_by_name_in].
  destruct Hin as [E|Hin].
  - injection E as -> ->. rewrite (member_named_spec t t n z); auto using member_in.
  - rewrite member_named_none; [now apply (IH H2 t)|]. intros Hi. apply in_map_iff in Hi as (n' & E & Hi).
    apply cps_inj in E. subst n'. apply (Hd n Hi). apply in_flat_map. exists (t, c). split; [exact Hin|].
    apply (in_map fst _ (n, z)), member_in, Hm.
Qed.
Theorem access_by_name_spec t c n z : family t c -> member t n z -> access_by_name (cps n) = Some (VEnum n z, c).
Proof. intros Hf Hm. eapply access_by_name_in_spec; eauto. exact access_names_NoDup. Qed.
Lemma member_named_inv t all s m : (forall p, In p t -> In p all) -> member_named t all s = Some m ->
  exists n z, s = cps n /\ m = VEnum n z /\ member all n z.
Proof.
  induction t as [|[n z] t IH]; cbn [member_named]; [discriminate|]. intros Hsub.
  assert (Hsub' : forall p, In p t -> In p all) by (intros p Hp; apply Hsub; now right).
  destruct (by_value all z) as [x|] eqn:E; [|exact (IH Hsub')]. destruct (by_value_enum _ _ _ E) as (n2 & -> & Hin2).
  destruct (zlist_eqb s (cps n2)) eqn:Es; [|exact (IH Hsub')]. intros [= <-]. exists n2, z.
  split; [now apply zlist_eqb_spec|]. split; [reflexivity|]. now apply by_value_member.
Qed.
Lemma access_by_name_inv s m c : access_by_name s = Some (m, c) ->
  exists t n z, family t c /\ member t n z /\ s = cps n /\ m = VEnum n z.
Proof.
  unfold access_by_name, family. induction access_table as [|[t' c'] l IH]; cbn [access_by_name_in]; [discriminate|].
  destruct (member_named t' t' s) as [m1|] eqn:E.
  - intros [= <- <-]. destruct (member_named_inv _ _ _ _ (fun p H => H) E) as (n & z & -> & -> & Hm).
    exists t', n, z. repeat split; auto. now left.
  - intros H. destruct (IH H) as (t & n & z & Hf & Hm). exists t, n, z. split; [now right|exact Hm].
Qed.

(** every family is an opcode followed by the parameters *)
Lemma access_shape t c : family t c -> exists cs, c = CSwitchStruct "opcode" (COpcode t) t "params" cs.
Proof.
  assert (H : Forall (fun p => exists cs, snd p = CSwitchStruct "opcode" (COpcode (fst p)) (fst p) "params" cs) access_table).
  { unfold access_table. repeat (constructor; [eexists; reflexivity|]). constructor. }
  rewrite Forall_forall in H. intros Hf. exact (H _ Hf).
Qed.
Lemma access_wf t c : family t c -> wf false c = true.
Proof.
  assert (H : forallb (fun p => wf false (snd p)) access_table = true) by (vm_compute; reflexivity).
  rewrite forallb_forall in H. intros Hf. exact (H _ Hf).
Qed.
Lemma access_prod t c : family t c -> prod c = true.
Proof.
  assert (H : forallb (fun p => prod (snd p)) access_table = true) by (vm_compute; reflexivity).
  rewrite forallb_forall in H. intros Hf. exact (H _ Hf).
Qed.
Lemma access_no_opcode_name t c n z : family t c -> member t n z -> lower n <> "opcode"%string.
Proof.
  assert (H : forallb (fun p => forallb (fun q => negb (String.eqb (lower (fst q)) "opcode")) (fst p)) access_table = true)
    by (vm_compute; reflexivity).
  rewrite forallb_forall in H. intros Hf Hm E. specialize (H _ Hf). cbn [fst] in H. rewrite forallb_forall in H.
  specialize (H _ (member_in _ _ _ Hm)). cbn [fst] in H. rewrite E in H. discriminate.
Qed.
Lemma family_legal t c n z : family t c -> member t n z -> legal_opcode z.
Proof.
  intros Hf Hm. pose proof access_legal as H. rewrite Forall_forall in H. apply H. apply in_flat_map.
  exists (t, c). split; [exact Hf|]. apply (in_map snd _ (n, z)), member_in, Hm.
Qed.

(** ** AccessMessage and the families *)
Theorem access_parse_family t c n z o r : family t c -> member t n z -> opcode_bytes z o ->
  access_parse (o ++ r) = parse_msg c (o ++ r).
Proof.
  intros Hf Hm Ho. unfold access_parse, access_parse_at. rewrite (opcode_bytes_parse _ _ _ Ho). cbn [bind].
  assert (access_lookup z = Some (VEnum n z, c)) as -> by (apply access_lookup_spec; eauto).
  cbn [app]. unfold parse_msg. destruct (access_shape t c Hf) as (cs & ->). cbn [parse].
  rewrite (opcode_bytes_parse _ _ _ Ho). cbn [bind]. rewrite (member_by_value _ _ _ Hm).
  cbn [bind]. destruct (parse_case z cs _ r) as [[v r']|e|]; cbn [bind]; try reflexivity.
  do 2 f_equal. apply dset_same. rewrite dget_dset_neq by (pose proof (access_no_opcode_name _ _ _ _ Hf Hm); congruence).
  reflexivity.
Qed.
Theorem access_build_family t c n z d op : family t c -> member t n z ->
  dget "opcode" d = Some op -> as_int op = Some z ->
  access_build (VDict d) = build_msg c (VDict d).
Proof.
  intros Hf Hm Hd Hop. unfold access_build, dgetr. rewrite Hd. cbn [bind].
  assert (access_lookup z = Some (VEnum n z, c)) as Hl by (apply access_lookup_spec; eauto).
  destruct op; try discriminate; rewrite (int_key_as_int _ _ Hop), Hl; reflexivity.
Qed.
Theorem access_build_named t c n z d : family t c -> member t n z ->
  dget "opcode" d = Some (VStr (cps n)) ->
  access_build (VDict d) = access_build (VDict (dset "opcode" (VEnum n z) d)).
Proof.
  intros Hf Hm Hd. rewrite (access_build_family t c n z (dset "opcode" (VEnum n z) d) (VEnum n z)) by (auto using dget_dset_eq).
  unfold access_build, dgetr. rewrite Hd. cbn [bind]. now rewrite (access_by_name_spec _ _ _ _ Hf Hm).
Qed.
Theorem access_unknown z o r : opcode_bytes z o -> (forall t c n, family t c -> ~ member t n z) ->
  let v := VDict [("opcode"%string, VInt z); ("params"%string, VBytes r)] in
  access_parse (o ++ r) = Ok v /\ access_build v = Ok (o ++ r).
Proof.
  intros Ho Hu v. assert (access_lookup z = None) as Hl.
  { destruct (access_lookup z) as [[m c]|] eqn:E; [|reflexivity]. apply access_lookup_spec in E as (t & n & Hf & Hm & _).
    exfalso. eapply Hu; eauto. }
  split.
  - unfold access_parse, access_parse_at. rewrite (opcode_bytes_parse _ _ _ Ho). cbn [bind]. rewrite Hl. reflexivity.
  - subst v. unfold access_build, dgetr. cbn [dget String.eqb Ascii.eqb Bool.eqb bind]. rewrite (int_key_as_int (VInt z) z eq_refl), Hl.
    cbn [bind as_intr as_int]. rewrite (opcode_bytes_build _ _ Ho). reflexivity.
Qed.

(** ** Round trip *)
(** A well-formed access message [v], and the object [v'] a receiver reads: the
    opcode is a member, a number or a member's name of one of the families, and
    the object is a legal argument of that family's message. *)
Definition access_message (v v' : val) : Prop :=
  exists d t c n z, v = VDict d /\ family t c /\ member t n z /\
    ((exists op, dget "opcode" d = Some op /\ as_int op = Some z /\ message A_spec c v v') \/
     (dget "opcode" d = Some (VStr (cps n)) /\ message A_spec c (VDict (dset "opcode" (VEnum n z) d)) v')).

Lemma build_prefix t c n z d op s : family t c -> member t n z -> dget "opcode" d = Some op -> as_int op = Some z ->
  build_msg c (VDict d) = Ok s -> exists o r, s = o ++ r /\ opcode_bytes z o.
Proof.
  intros Hf Hm Hd Hop H. destruct (access_shape t c Hf) as (cs & ->).
  destruct (legal_opcode_bytes z (family_legal _ _ _ _ Hf Hm)) as (o & Ho).
  unfold build_msg in H. cbn [build] in H. unfold dgetr at 1 in H. rewrite Hd in H. cbn [bind] in H.
  rewrite (int_key_as_int _ _ Hop), (member_by_value _ _ _ Hm) in H.
  apply bind_ok in H as (x & _ & H). cbn [bind as_intr as_int] in H. rewrite (opcode_bytes_build _ _ Ho) in H. cbn [bind] in H.
  rewrite (member_by_value _ _ _ Hm) in H. cbn [bind] in H. apply bind_ok in H as (b & _ & H). injection H as <-. eauto.
Qed.

Theorem access_roundtrip v v' : access_message v v' ->
  exists s, access_build v = Ok s /\ bytes s /\ exists u, access_parse s = Ok u /\ pub u = v'.
Proof.
  assert (Main : forall d t c n z op, family t c -> member t n z -> dget "opcode" d = Some op -> as_int op = Some z ->
            message A_spec c (VDict d) v' ->
            exists s, access_build (VDict d) = Ok s /\ bytes s /\ exists u, access_parse s = Ok u /\ pub u = v').
  { intros d t c n z op Hf Hm Hd Hop Hmsg.
    destruct (roundtrip A_spec adapters_ok c (VDict d) v' (access_wf _ _ Hf) Hmsg) as (s & Hs & Hb & u & Hu & E).
    exists s. rewrite (access_build_family t c n z d op) by auto. repeat split; auto. exists u. split; [|exact E].
    destruct (build_prefix _ _ _ _ _ _ _ Hf Hm Hd Hop Hs) as (o & r & -> & Ho).
    now rewrite (access_parse_family t c n z o r). }
  intros (d & t & c & n & z & -> & Hf & Hm & [(op & Hd & Hop & Hmsg) | (Hd & Hmsg)]).
  - eapply Main; eauto.
  - rewrite (access_build_named _ _ _ _ _ Hf Hm Hd). eapply Main; eauto using dget_dset_eq.
Qed.

Corollary access_injective v1 v1' v2 v2' : access_message v1 v1' -> access_message v2 v2' ->
  access_build v1 = access_build v2 -> v1' = v2'.
Proof.
  intros H1 H2 E. destruct (access_roundtrip _ _ H1) as (s1 & B1 & _ & u1 & P1 & <-).
  destruct (access_roundtrip _ _ H2) as (s2 & B2 & _ & u2 & P2 & <-). rewrite B1, B2 in E. injection E as ->.
  rewrite P1 in P2. now injection P2 as ->.
Qed.

(** ** Termination *)
Theorem access_parse_terminates s : access_parse s <> Diverge.
Proof.
  unfold access_parse, access_parse_at. apply bind_div; [apply opcode_parse_nodiv|]. intros (z & r) _.
  destruct (access_lookup z) as [[m c]|] eqn:E; [|discriminate].
  apply access_lookup_spec in E as (t & n & Hf & _ & _).
  apply bind_div; [|intros v _; destruct v; discriminate].
  unfold parse_msg. apply bind_div; [|intros (v & r') _; discriminate].
  apply parse_nodiv. eapply access_prod; eauto.
Qed.
Theorem access_build_terminates v : access_build v <> Diverge.
Proof.
  unfold access_build. destruct v as [| | | | | | | | | |d| | | | |]; try discriminate.
  apply bind_div; [apply dgetr_nodiv|]. intros op _.
  assert (H : forall op, match int_key op with
    | Some z => match access_lookup z with
                | Some (_, c) => build_msg c (VDict d)
                | None => let* w := as_intr op in let* a := opcode_build w in let* p := dgetr "params" d in
                    match p with VBytes l => Ok (a ++ l) | _ => Err EOther end end
    | None => Err EOther end <> Diverge).
  { intros o. destruct (int_key o) as [z|]; [|discriminate]. destruct (access_lookup z) as [[m c]|]; [apply build_nodiv|].
    apply bind_div; [apply as_intr_nodiv|]; intros w _. apply bind_div; [apply opcode_build_nodiv|]; intros a _.
    apply bind_div; [apply dgetr_nodiv|]; intros p _. destruct p; discriminate. }
  destruct op; try (apply (H _)).
  destruct (access_by_name s) as [[m c]|]; [apply build_nodiv|discriminate].
Qed.

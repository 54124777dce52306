(** * Bits: integers as byte strings and bit strings.

    Models construct 2.9.45's [lib/binary.py] (integer2bytes, bytes2integer,
    integer2bits, bits2integer, bytes2bits, bits2bytes) and Python's
    [struct.pack]/[int.to_bytes]; a bit string is a list of 0/1, most
    significant bit first, exactly as construct's Bitwise feeds it. *)
From Coq Require Import List ZArith Lia Bool.
Import ListNotations.
Open Scope Z_scope.

(** n bytes of z, least significant first *)
Fixpoint to_le (n : nat) (z : Z) : list Z :=
  match n with
  | O => []
  | S n' => z mod 256 :: to_le n' (z / 256)
  end.

Fixpoint of_le (l : list Z) : Z :=
  match l with
  | [] => 0
  | b :: l' => b + 256 * of_le l'
  end.

(** n bits of z, least significant first *)
Fixpoint to_lsb (n : nat) (z : Z) : list Z :=
  match n with
  | O => []
  | S n' => z mod 2 :: to_lsb n' (z / 2)
  end.

Fixpoint of_lsb (l : list Z) : Z :=
  match l with
  | [] => 0
  | b :: l' => b + 2 * of_lsb l'
  end.

(** n bits of z, most significant first (integer2bits: "trimmed to width bits") *)
Definition to_bits (n : nat) (z : Z) : list Z := rev (to_lsb n z).
Definition of_bits (l : list Z) : Z := of_lsb (rev l).

Definition bytes2bits (l : list Z) : list Z := flat_map (to_bits 8) l.

(** whole bytes of a bit string; a trailing incomplete byte is left over *)
Fixpoint bits2bytes (l : list Z) : list Z * list Z :=
  match l with
  | b7 :: b6 :: b5 :: b4 :: b3 :: b2 :: b1 :: b0 :: l' =>
      let (bs, r) := bits2bytes l' in (of_bits [b7; b6; b5; b4; b3; b2; b1; b0] :: bs, r)
  | _ => ([], l)
  end.

(** two's complement reading of an n-bit unsigned z *)
Definition to_signed (bits : Z) (z : Z) : Z :=
  if z <? 2 ^ (bits - 1) then z else z - 2 ^ bits.

Definition isbyte (b : Z) : Prop := 0 <= b < 256.
Definition isbit (b : Z) : Prop := b = 0 \/ b = 1.
Definition bytes (l : list Z) : Prop := Forall isbyte l.
Definition bits (l : list Z) : Prop := Forall isbit l.

Lemma to_le_length n z : length (to_le n z) = n.
Proof. revert z; induction n; simpl; intros; auto. Qed.

Lemma to_lsb_length n z : length (to_lsb n z) = n.
Proof. revert z; induction n; simpl; intros; auto. Qed.

Lemma to_bits_length n z : length (to_bits n z) = n.
Proof. unfold to_bits. now rewrite rev_length, to_lsb_length. Qed.

Lemma to_le_bytes n z : bytes (to_le n z).
Proof.
  revert z; induction n; simpl; intros; constructor; [|apply IHn].
  apply Z.mod_pos_bound. lia.
Qed.

Lemma to_lsb_bits n z : bits (to_lsb n z).
Proof.
  revert z; induction n; simpl; intros; constructor; [|apply IHn].
  pose proof (Z.mod_pos_bound z 2). unfold isbit. lia.
Qed.

Lemma to_bits_bits n z : bits (to_bits n z).
Proof. apply Forall_rev, to_lsb_bits. Qed.

Lemma pow256_S n : 256 ^ Z.of_nat (S n) = 256 * 256 ^ Z.of_nat n.
Proof. rewrite Nat2Z.inj_succ, Z.pow_succ_r by lia. reflexivity. Qed.

Lemma pow2_S n : 2 ^ Z.of_nat (S n) = 2 * 2 ^ Z.of_nat n.
Proof. rewrite Nat2Z.inj_succ, Z.pow_succ_r by lia. reflexivity. Qed.

Lemma of_to_le n z : of_le (to_le n z) = z mod 256 ^ Z.of_nat n.
Proof.
  revert z; induction n; intros z.
  - simpl. now rewrite Z.mod_1_r.
  - cbn [to_le of_le]. rewrite IHn, pow256_S.
    rewrite Z.rem_mul_r by (try apply Z.pow_nonzero; try apply Z.pow_pos_nonneg; lia). ring.
Qed.

Lemma of_to_lsb n z : of_lsb (to_lsb n z) = z mod 2 ^ Z.of_nat n.
Proof.
  revert z; induction n; intros z.
  - simpl. now rewrite Z.mod_1_r.
  - cbn [to_lsb of_lsb]. rewrite IHn, pow2_S.
    rewrite Z.rem_mul_r by (try apply Z.pow_nonzero; try apply Z.pow_pos_nonneg; lia). ring.
Qed.

Lemma of_to_bits n z : of_bits (to_bits n z) = z mod 2 ^ Z.of_nat n.
Proof. unfold of_bits, to_bits. now rewrite rev_involutive, of_to_lsb. Qed.

Lemma of_le_bound l : bytes l -> 0 <= of_le l < 256 ^ Z.of_nat (length l).
Proof.
  induction 1 as [|b l Hb Hl IH]; [simpl; lia|].
  cbn [of_le length]. rewrite pow256_S. unfold isbyte in Hb. lia.
Qed.

Lemma of_lsb_bound l : bits l -> 0 <= of_lsb l < 2 ^ Z.of_nat (length l).
Proof.
  induction 1 as [|b l Hb Hl IH]; [simpl; lia|].
  cbn [of_lsb length]. rewrite pow2_S. unfold isbit in Hb. lia.
Qed.

Lemma of_bits_bound l : bits l -> 0 <= of_bits l < 2 ^ Z.of_nat (length l).
Proof. intros H. unfold of_bits. rewrite <- rev_length. apply of_lsb_bound, Forall_rev, H. Qed.

Lemma to_of_le l : bytes l -> to_le (length l) (of_le l) = l.
Proof.
  induction 1 as [|b l Hb Hl IH]; [reflexivity|].
  cbn [length of_le to_le]. unfold isbyte in Hb. f_equal.
  - rewrite Z.mul_comm, Z_mod_plus_full. apply Z.mod_small. lia.
  - replace ((b + 256 * of_le l) / 256) with (of_le l); [exact IH|].
    rewrite Z.mul_comm, Z.div_add by lia. rewrite Z.div_small by lia. lia.
Qed.

Lemma to_of_lsb l : bits l -> to_lsb (length l) (of_lsb l) = l.
Proof.
  induction 1 as [|b l Hb Hl IH]; [reflexivity|].
  cbn [length of_lsb to_lsb]. unfold isbit in Hb. f_equal.
  - rewrite Z.mul_comm, Z_mod_plus_full. apply Z.mod_small. lia.
  - replace ((b + 2 * of_lsb l) / 2) with (of_lsb l); [exact IH|].
    rewrite Z.mul_comm, Z.div_add by lia. rewrite Z.div_small by lia. lia.
Qed.

Lemma to_of_bits l : bits l -> to_bits (length l) (of_bits l) = l.
Proof.
  intros H. unfold to_bits, of_bits. rewrite <- (rev_length l).
  rewrite to_of_lsb by (apply Forall_rev, H). apply rev_involutive.
Qed.

Lemma bytes2bits_bits l : bits (bytes2bits l).
Proof.
  unfold bytes2bits. induction l; cbn [flat_map]; [constructor|].
  apply Forall_app; split; [apply to_bits_bits | assumption].
Qed.

Lemma bytes2bits_length l : length (bytes2bits l) = (8 * length l)%nat.
Proof.
  unfold bytes2bits. induction l; [reflexivity|].
  cbn [flat_map length]. rewrite app_length, to_bits_length, IHl. lia.
Qed.

Lemma bytes2bits_app a b : bytes2bits (a ++ b) = bytes2bits a ++ bytes2bits b.
Proof. apply flat_map_app. Qed.

Lemma bits2bytes_app8 l r : length l = 8%nat ->
  bits2bytes (l ++ r) = (of_bits l :: fst (bits2bytes r), snd (bits2bytes r)).
Proof.
  intros H. do 8 (destruct l as [|? l]; [discriminate|]). destruct l; [|discriminate].
  cbn [app]. cbn [bits2bytes]. destruct (bits2bytes r). reflexivity.
Qed.

Lemma bits2bytes_bytes2bits l r : bytes l -> (length r < 8)%nat ->
  bits2bytes (bytes2bits l ++ r) = (l, r).
Proof.
  intros Hl Hr. induction Hl as [|b l Hb Hl IH].
  - simpl. do 8 (destruct r as [|? r]; [reflexivity|]). simpl in Hr. lia.
  - unfold bytes2bits in *. cbn [flat_map]. rewrite <- app_assoc, bits2bytes_app8 by apply to_bits_length.
    rewrite IH. cbn [fst snd]. f_equal. f_equal.
    rewrite of_to_bits. apply Z.mod_small. exact Hb.
Qed.

Lemma bits2bytes_bytes2bits' l : bytes l -> bits2bytes (bytes2bits l) = (l, []).
Proof.
  intros H. rewrite <- (app_nil_r (bytes2bits l)). apply bits2bytes_bytes2bits; [exact H | simpl; lia].
Qed.

(** every bit string splits into whole bytes and a remainder shorter than a byte *)
Lemma bits2bytes_spec l : bits l -> forall bs r, bits2bytes l = (bs, r) ->
  l = bytes2bits bs ++ r /\ bytes bs /\ (length r < 8)%nat.
Proof.
  remember (length l) as n eqn:Hn. revert l Hn.
  induction n as [n IH] using lt_wf_ind; intros l Hn Hb bs r E.
  do 8 (destruct l as [|? l]; [cbn [bits2bytes] in E; injection E as <- <-; repeat split; [constructor | simpl; lia]|]).
  cbn [bits2bytes] in E. destruct (bits2bytes l) as [bs' r'] eqn:E'. injection E as <- <-.
  match goal with |- ?x = _ /\ _ /\ _ => set (l8 := firstn 8 x) end.
  assert (Hl8 : bits l8 /\ bits l).
  { unfold bits in *. repeat match goal with H : Forall _ (_ :: _) |- _ => inversion H; clear H; subst end.
    unfold l8; simpl. split; [|assumption]. repeat (constructor; [assumption|]). constructor. }
  destruct Hl8 as [H8 Hl].
  destruct (IH (length l)) with (l := l) (bs := bs') (r := r') as (E1 & E2 & E3); auto.
  { simpl in Hn. lia. }
  repeat split; [|constructor; [|exact E2]|exact E3].
  - unfold bytes2bits. cbn [flat_map]. rewrite <- app_assoc. fold (bytes2bits bs').
    change [z; z0; z1; z2; z3; z4; z5; z6] with l8. rewrite <- E1.
    change 8%nat with (length l8). rewrite to_of_bits by exact H8. reflexivity.
  - change [z; z0; z1; z2; z3; z4; z5; z6] with l8. exact (of_bits_bound l8 H8).
Qed.

Lemma signed_roundtrip n z : 0 < n -> - 2 ^ (n - 1) <= z < 2 ^ (n - 1) ->
  to_signed n (z mod 2 ^ n) = z.
Proof.
  intros Hn H. unfold to_signed.
  assert (E : 2 ^ n = 2 * 2 ^ (n - 1)).
  { rewrite <- Z.pow_succ_r by lia. f_equal. lia. }
  destruct (Z.neg_nonneg_cases z).
  - rewrite <- (Z_mod_plus_full z 1), Z.mul_1_l, (Z.mod_small (z + 2 ^ n)) by lia.
    destruct (Z.ltb_spec (z + 2 ^ n) (2 ^ (n - 1))); lia.
  - rewrite Z.mod_small by lia. destruct (Z.ltb_spec z (2 ^ (n - 1))); lia.
Qed.

Lemma to_signed_bound n z : 0 < n -> 0 <= z < 2 ^ n ->
  - 2 ^ (n - 1) <= to_signed n z < 2 ^ (n - 1) /\ to_signed n z mod 2 ^ n = z.
Proof.
  intros Hn H. unfold to_signed.
  assert (E : 2 ^ n = 2 * 2 ^ (n - 1)).
  { rewrite <- Z.pow_succ_r by lia. f_equal. lia. }
  destruct (Z.ltb_spec z (2 ^ (n - 1))).
  - split; [lia|]. apply Z.mod_small. lia.
  - split; [lia|]. rewrite <- (Z_mod_plus_full _ 1), Z.mul_1_l.
    replace (z - 2 ^ n + 2 ^ n) with z by lia. apply Z.mod_small. lia.
Qed.

Lemma pow256_2 n : 256 ^ Z.of_nat n = 2 ^ (8 * Z.of_nat n).
Proof. rewrite Z.pow_mul_r by lia. reflexivity. Qed.

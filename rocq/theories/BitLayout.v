(** * BitLayout: what a bit field occupies, as arithmetic on the whole bytes. *)
From Verif Require Import PyVal Bits Adapters Construct Size.

Lemma to_lsb_app n : forall m z, to_lsb (n + m) z = to_lsb n z ++ to_lsb m (z / 2 ^ Z.of_nat n).
Proof.
  induction n as [|n IH]; intros m z; simpl.
  - now rewrite Z.div_1_r.
  - f_equal. rewrite IH. do 2 f_equal. rewrite Z.div_div by lia. f_equal.
    rewrite <- Z.pow_succ_r by lia. f_equal. lia.
Qed.
Lemma to_lsb_mod n : forall z, to_lsb n (z mod 2 ^ Z.of_nat n) = to_lsb n z.
Proof.
  induction n as [|n IH]; intros z; [reflexivity|].
  rewrite pow2_S. cbn [to_lsb]. assert (0 < 2 ^ Z.of_nat n) by (apply Z.pow_pos_nonneg; lia).
  rewrite (Z.rem_mul_r z 2) by lia. f_equal.
  - rewrite (Z.mul_comm 2), Z.mod_add, Z.mod_mod by lia. reflexivity.
  - rewrite (Z.mul_comm 2), Z.div_add by lia. rewrite (Z.div_small (z mod 2) 2), Z.add_0_l by (apply Z.mod_pos_bound; lia). apply IH.
Qed.
(** adjacent fields: the first one is the more significant *)
Lemma to_bits_app n m a b : 0 <= b < 2 ^ Z.of_nat m ->
  to_bits n a ++ to_bits m b = to_bits (n + m) (a * 2 ^ Z.of_nat m + b).
Proof.
  intros Hb. unfold to_bits. rewrite <- rev_app_distr. f_equal. rewrite Nat.add_comm, to_lsb_app. f_equal.
  - rewrite <- to_lsb_mod at 1. rewrite <- (to_lsb_mod m (a * _ + b)). rewrite Z.add_comm, Z.mod_add by lia. reflexivity.
  - f_equal. rewrite Z.div_add_l, Z.div_small by lia. lia.
Qed.
Lemma to_bits_split n m z : to_bits (n + m) z = to_bits n (z / 2 ^ Z.of_nat m) ++ to_bits m z.
Proof. unfold to_bits. rewrite Nat.add_comm, to_lsb_app, rev_app_distr. reflexivity. Qed.
Lemma to_bits_zero n : to_bits n 0 = repeat 0 n.
Proof.
  unfold to_bits. induction n as [|n IH]; [reflexivity|]. cbn [to_lsb rev]. change (0 mod 2) with 0. change (0 / 2) with 0.
  rewrite IH. rewrite <- repeat_cons. reflexivity.
Qed.
Lemma bytes2bits_le n : forall z, bytes2bits (rev (to_le n z)) = to_bits (8 * n) z.
Proof.
  induction n as [|n IH]; intros z; [reflexivity|]. cbn [to_le rev]. rewrite bytes2bits_app, IH.
  unfold bytes2bits at 1. cbn [flat_map]. rewrite app_nil_r.
  rewrite (to_bits_app _ 8) by (apply Z.mod_pos_bound; lia).
  replace (8 * S n)%nat with (8 * n + 8)%nat by lia. f_equal. change (2 ^ Z.of_nat 8) with 256. pose proof (Z.div_mod z 256). lia.
Qed.
(** whole bytes, most significant first *)
Lemma bits2bytes_to_bits n z : bits2bytes (to_bits (8 * n) z) = (rev (to_le n z), []).
Proof. rewrite <- bytes2bits_le. apply bits2bytes_bytes2bits'. apply Forall_rev, to_le_bytes. Qed.
Lemma to_le_mod n : forall z, to_le n (z mod 256 ^ Z.of_nat n) = to_le n z.
Proof.
  intros z. rewrite <- (of_to_le n z). rewrite <- (to_le_length n z) at 1. apply to_of_le, to_le_bytes.
Qed.
Lemma le_of n s : bytes s -> length s = n -> s = to_le n (of_le s).
Proof. intros Hs <-. symmetry. now apply to_of_le. Qed.
Lemma of_le_inj s s' : bytes s -> bytes s' -> length s = length s' -> of_le s = of_le s' -> s = s'.
Proof. intros H H' L E. rewrite (le_of _ s H eq_refl), (le_of _ s' H' eq_refl). congruence. Qed.
(** one-step unfolding *)
Lemma parse_adapt a c ctx s : parse (CAdapt a c) ctx s =
  (let* q := parse c ctx s in let (w, r) := (q : val * list Z) in let* v := decode a w in Ok (v, r)).
Proof. reflexivity. Qed.
Lemma build_adapt a c ctx v : build (CAdapt a c) ctx v = (let* w := encode a v in build c ctx w).
Proof. reflexivity. Qed.
Lemma build_u1 ctx z : 0 <= z < 256 -> build Int8ul ctx (VInt z) = Ok [z].
Proof.
  intros H. cbn [build as_intr as_int bind]. unfold int_min, int_max. change (2 ^ (8 * Z.of_nat 1)) with 256.
  destruct (Z.leb_spec 0 z); [|lia]. destruct (Z.leb_spec z (256 - 1)); [|lia]. cbn [andb to_le]. now rewrite Z.mod_small.
Qed.
Lemma parse_u1 ctx z r : parse Int8ul ctx (z :: r) = Ok (VInt z, r).
Proof. cbn [parse]. unfold take. cbn [length Nat.leb firstn skipn bind]. unfold int_of. cbn [of_le]. do 3 f_equal. lia. Qed.
Lemma build_u2 ctx z : 0 <= z < 65536 -> build Int16ul ctx (VInt z) = Ok [z mod 256; z / 256].
Proof.
  intros H. cbn [build as_intr as_int bind]. unfold int_min, int_max. change (2 ^ (8 * Z.of_nat 2)) with 65536.
  destruct (Z.leb_spec 0 z); [|lia]. destruct (Z.leb_spec z (65536 - 1)); [|lia]. cbn [andb to_le].
  rewrite (Z.mod_small (z / 256)); [reflexivity|]. split; [apply Z.div_pos; lia|apply Z.div_lt_upper_bound; lia].
Qed.
Lemma parse_u2 ctx a b r : parse Int16ul ctx (a :: b :: r) = Ok (VInt (a + 256 * b), r).
Proof. cbn [parse]. unfold take. cbn [length Nat.leb firstn skipn bind]. unfold int_of. cbn [of_le]. do 3 f_equal. lia. Qed.

(** * Utf8: Python's strict utf-8 codec (bytes.decode / str.encode).

    Models the codec behind GreedyString("utf8"), PaddedString(n, "utf8") and
    PascalString(.., "utf-8") (silvair/debug.py, silvair/debugV2.py,
    silvair/gateway_config_server.py, properties.py:279-288). *)
From Coq Require Import List ZArith Lia Bool ZifyBool.
From Verif Require Import Bits.
Import ListNotations.
Ltac Zify.zify_post_hook ::= Z.div_mod_to_equations.
Open Scope Z_scope.

(** code points a Python str may hold and utf-8 can encode *)
Definition scalar (c : Z) : bool :=
  (0 <=? c) && (c <=? 0x10FFFF) && negb ((0xD800 <=? c) && (c <=? 0xDFFF)).

Definition enc1 (c : Z) : list Z :=
  if c <? 0x80 then [c]
  else if c <? 0x800 then [0xC0 + c / 64; 0x80 + c mod 64]
  else if c <? 0x10000 then [0xE0 + c / 4096; 0x80 + (c / 64) mod 64; 0x80 + c mod 64]
  else [0xF0 + c / 262144; 0x80 + (c / 4096) mod 64; 0x80 + (c / 64) mod 64; 0x80 + c mod 64].

(** str.encode("utf8"); None = UnicodeEncodeError *)
Fixpoint utf8_encode (s : list Z) : option (list Z) :=
  match s with
  | [] => Some []
  | c :: s' =>
      if scalar c then
        match utf8_encode s' with
        | Some l => Some (enc1 c ++ l)
        | None => None
        end
      else None
  end.

Definition cont (b : Z) : bool := (0x80 <=? b) && (b <? 0xC0).

Definition ocons (c : Z) (r : option (list Z)) : option (list Z) :=
  match r with Some l => Some (c :: l) | None => None end.

(** bytes.decode("utf8"); None = UnicodeDecodeError *)
Fixpoint utf8_decode (l : list Z) : option (list Z) :=
  match l with
  | [] => Some []
  | b0 :: l1 =>
      if b0 <? 0x80 then ocons b0 (utf8_decode l1)
      else if b0 <? 0xC0 then None
      else match l1 with
      | [] => None
      | b1 :: l2 =>
          if negb (cont b1) then None else
          if b0 <? 0xE0 then
            let c := (b0 - 0xC0) * 64 + (b1 - 0x80) in
            if c <? 0x80 then None else ocons c (utf8_decode l2)
          else match l2 with
          | [] => None
          | b2 :: l3 =>
              if negb (cont b2) then None else
              if b0 <? 0xF0 then
                let c := (b0 - 0xE0) * 4096 + (b1 - 0x80) * 64 + (b2 - 0x80) in
                if (c <? 0x800) || negb (scalar c) then None else ocons c (utf8_decode l3)
              else match l3 with
              | [] => None
              | b3 :: l4 =>
                  if negb (cont b3) then None else
                  let c := (b0 - 0xF0) * 262144 + (b1 - 0x80) * 4096 + (b2 - 0x80) * 64 + (b3 - 0x80) in
                  if (b0 <? 0xF8) && (0x10000 <=? c) && (c <=? 0x10FFFF)
                  then ocons c (utf8_decode l4) else None
              end
          end
      end
  end.

Lemma decode_enc1 c l : scalar c = true -> utf8_decode (enc1 c ++ l) = ocons c (utf8_decode l).
Proof.
  intros H. unfold enc1.
  destruct (Z.ltb_spec c 128).
  { cbn [app utf8_decode]. replace (c <? 128) with true by lia. reflexivity. }
  destruct (Z.ltb_spec c 2048).
  { cbn [app utf8_decode]. unfold cont.
    replace (192 + c / 64 <? 128) with false by lia.
    replace (192 + c / 64 <? 192) with false by lia.
    replace ((128 <=? 128 + c mod 64) && (128 + c mod 64 <? 192)) with true by lia. cbn [negb].
    replace (192 + c / 64 <? 224) with true by lia.
    replace ((192 + c / 64 - 192) * 64 + (128 + c mod 64 - 128)) with c by lia.
    replace (c <? 128) with false by lia. reflexivity. }
  destruct (Z.ltb_spec c 65536).
  { cbn [app utf8_decode]. unfold cont.
    replace (224 + c / 4096 <? 128) with false by lia.
    replace (224 + c / 4096 <? 192) with false by lia.
    replace ((128 <=? 128 + (c / 64) mod 64) && (128 + (c / 64) mod 64 <? 192)) with true by lia. cbn [negb].
    replace (224 + c / 4096 <? 224) with false by lia.
    replace ((128 <=? 128 + c mod 64) && (128 + c mod 64 <? 192)) with true by lia. cbn [negb].
    replace (224 + c / 4096 <? 240) with true by lia.
    replace ((224 + c / 4096 - 224) * 4096 + (128 + (c / 64) mod 64 - 128) * 64 + (128 + c mod 64 - 128)) with c by lia.
    rewrite H. replace (c <? 2048) with false by lia. reflexivity. }
  unfold scalar in H.
  cbn [app utf8_decode]. unfold cont.
  replace (240 + c / 262144 <? 128) with false by lia.
  replace (240 + c / 262144 <? 192) with false by lia.
  replace ((128 <=? 128 + (c / 4096) mod 64) && (128 + (c / 4096) mod 64 <? 192)) with true by lia. cbn [negb].
  replace (240 + c / 262144 <? 224) with false by lia.
  replace ((128 <=? 128 + (c / 64) mod 64) && (128 + (c / 64) mod 64 <? 192)) with true by lia. cbn [negb].
  replace (240 + c / 262144 <? 240) with false by lia.
  replace ((128 <=? 128 + c mod 64) && (128 + c mod 64 <? 192)) with true by lia. cbn [negb].
  replace ((240 + c / 262144 - 240) * 262144 + (128 + (c / 4096) mod 64 - 128) * 4096
           + (128 + (c / 64) mod 64 - 128) * 64 + (128 + c mod 64 - 128)) with c by lia.
  replace ((240 + c / 262144 <? 248) && (65536 <=? c) && (c <=? 1114111)) with true by lia.
  reflexivity.
Qed.

Theorem utf8_decode_encode s l : utf8_encode s = Some l -> utf8_decode l = Some s.
Proof.
  revert l; induction s as [|c s IH]; cbn [utf8_encode]; intros l H.
  - injection H as <-. reflexivity.
  - destruct (scalar c) eqn:Hc; [|discriminate].
    destruct (utf8_encode s) as [l'|]; [|discriminate]. injection H as <-.
    rewrite decode_enc1 by exact Hc. rewrite (IH l' eq_refl). reflexivity.
Qed.

Lemma enc1_bytes c : scalar c = true -> bytes (enc1 c).
Proof.
  unfold scalar, enc1, bytes; intros H.
  destruct (Z.ltb_spec c 128); [|destruct (Z.ltb_spec c 2048); [|destruct (Z.ltb_spec c 65536)]];
    repeat constructor; unfold isbyte; lia.
Qed.

Lemma utf8_encode_bytes s l : utf8_encode s = Some l -> bytes l.
Proof.
  revert l; induction s as [|c s IH]; cbn [utf8_encode]; intros l H.
  - injection H as <-. constructor.
  - destruct (scalar c) eqn:Hc; [|discriminate].
    destruct (utf8_encode s) as [l'|]; [|discriminate]. injection H as <-.
    apply Forall_app; split; [now apply enc1_bytes | now apply IH].
Qed.

Theorem utf8_encode_decode n : forall l s, (length l <= n)%nat -> bytes l ->
  utf8_decode l = Some s -> utf8_encode s = Some l.
Proof.
  induction n as [|n IH]; intros l s Hn Hb H.
  { destruct l; [|simpl in Hn; lia]. cbn in H. injection H as <-. reflexivity. }
  destruct l as [|b0 l1]; [cbn in H; injection H as <-; reflexivity|].
  inversion Hb as [|? ? HB0 Hb1]; subst. unfold isbyte in HB0. cbn [utf8_decode] in H.
  assert (K : forall c l' , (length l' <= n)%nat -> bytes l' -> scalar c = true ->
     ocons c (utf8_decode l') = Some s -> enc1 c ++ l' = b0 :: l1 -> utf8_encode s = Some (b0 :: l1)).
  { intros c l' Hl Hbl Hc Hd E. destruct (utf8_decode l') as [s'|] eqn:Es; [|discriminate].
    cbn in Hd. injection Hd as <-. cbn [utf8_encode]. rewrite Hc, (IH l' s' Hl Hbl Es), E. reflexivity. }
  cbn [length] in Hn.
  destruct (Z.ltb_spec b0 128).
  { apply (K b0 l1); auto; [lia | unfold scalar; lia |].
    unfold enc1. replace (b0 <? 128) with true by lia. reflexivity. }
  destruct (Z.ltb_spec b0 192); [discriminate|].
  destruct l1 as [|b1 l2]; [discriminate|]. inversion Hb1 as [|? ? HB1 Hb2]; subst. cbn [length] in Hn.
  destruct (cont b1) eqn:C1; cbn [negb] in H; [|discriminate]. unfold cont in C1.
  destruct (Z.ltb_spec b0 224).
  { set (c := (b0 - 192) * 64 + (b1 - 128)) in *.
    destruct (Z.ltb_spec c 128); [discriminate|].
    apply (K c l2); auto; [lia | unfold scalar; lia |].
    unfold enc1. replace (c <? 128) with false by lia. replace (c <? 2048) with true by lia.
    cbn [app]. repeat f_equal; lia. }
  destruct l2 as [|b2 l3]; [discriminate|]. inversion Hb2 as [|? ? HB2 Hb3]; subst. cbn [length] in Hn.
  destruct (cont b2) eqn:C2; cbn [negb] in H; [|discriminate]. unfold cont in C2.
  destruct (Z.ltb_spec b0 240).
  { set (c := (b0 - 224) * 4096 + (b1 - 128) * 64 + (b2 - 128)) in *.
    destruct (Z.ltb_spec c 2048); cbn [orb] in H; [discriminate|].
    destruct (scalar c) eqn:Hc; cbn [negb] in H; [|discriminate].
    apply (K c l3); auto; [lia|].
    unfold enc1. replace (c <? 128) with false by lia. replace (c <? 2048) with false by lia.
    replace (c <? 65536) with true by lia.
    cbn [app]. repeat f_equal; lia. }
  destruct l3 as [|b3 l4]; [discriminate|]. inversion Hb3 as [|? ? HB3 Hb4]; subst. cbn [length] in Hn.
  destruct (cont b3) eqn:C3; cbn [negb] in H; [|discriminate]. unfold cont in C3.
  set (c := (b0 - 240) * 262144 + (b1 - 128) * 4096 + (b2 - 128) * 64 + (b3 - 128)) in *.
  destruct ((b0 <? 248) && (65536 <=? c) && (c <=? 1114111)) eqn:E; [|discriminate].
  apply (K c l4); auto; [lia | unfold scalar; lia |].
  unfold enc1. replace (c <? 128) with false by lia. replace (c <? 2048) with false by lia.
  replace (c <? 65536) with false by lia.
  cbn [app]. repeat f_equal; lia.
Qed.

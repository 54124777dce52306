(** * Reread: when a decoded object can be sent again unchanged (statement of C08).

    Two public views are [eqv] when Python's [==] holds between them: the same
    object, except that a whole number may be an int on one side and a float on
    the other (5 == 5.0). *)
From Verif Require Import PyVal Bits Float64 Adapters AdapterSpec.

Inductive eqv : val -> val -> Prop :=
| eqv_refl v : eqv v v
| eqv_if z q : (inject_Z z == q)%Q -> eqv (VInt z) (VFloat q)
| eqv_fi z q : (inject_Z z == q)%Q -> eqv (VFloat q) (VInt z)
| eqv_ff p q : (p == q)%Q -> eqv (VFloat p) (VFloat q)
| eqv_list l l' : Forall2 eqv l l' -> eqv (VList l) (VList l')
| eqv_dict d d' : Forall2 (fun p q => fst p = fst q /\ eqv (snd p) (snd q)) d d' -> eqv (VDict d) (VDict d').

(** [x] stands under the key [k], at any depth of [v] *)
Inductive entry : val -> string -> val -> Prop :=
| entry_here d k x : In (k, x) d -> entry (VDict d) k x
| entry_dict d j y k x : In (j, y) d -> entry y k x -> entry (VDict d) k x
| entry_list l y k x : In y l -> entry y k x -> entry (VList l) k x.

(** The decoded values that do not survive: a transition time of 43 tenths of a second,
    the delays and uncertainties of [lossy_delays] (binary64 division drops a step, C19,
    C21, C32); a time of 63 steps where "unknown" is not allowed (C20); IP addresses (C30);
    the unknown time (C32: all the entries None) and the last two days of the year 9999,
    where Python's date arithmetic overflows.
    [u]: the message may report an unknown remaining time. *)
Definition survives (u : bool) (k : string) (x : val) : Prop :=
  (k = "delay"%string -> forall z, In z lossy_delays -> x <> VFloat (rnd64 (z # 200))) /\
  (k = "transition_time"%string \/ k = "remaining_time"%string -> x <> step_value 0 43) /\
  (k = "transition_time"%string \/ k = "remaining_time"%string /\ u = false -> forall r, 0 <= r <= 3 -> x <> step_value r 63) /\
  (forall l, x <> VIPv4 l) /\
  (k = "uncertainty"%string -> forall z, In z lossy_delays -> x <> VTimedelta (z * 10000)) /\
  (k = "date"%string -> x <> VNone /\ forall us off, x = VDateTime us off -> us < (253402300800 - 2 * 86400) * 1000000).
Definition lossless (u : bool) (v : val) : Prop := forall k x, entry v k x -> survives u k x.

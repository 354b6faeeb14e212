(** Addition-subtraction chains over the integers, independent of how the
    program stores and evaluates them *)
From Coq Require Import ZArith List.
Import ListNotations.
Local Open Scope Z_scope.

(** Numbers computed so far, the newest first. Every step adds or subtracts
    two of them, one shifted to the left by any amount. *)
Inductive chain : list Z -> Prop :=
| chain_one : chain [1]
| chain_next : forall vals x y s e f, chain vals -> In x vals -> In y vals -> 0 <= s ->
    (e = 1 \/ e = -1) -> (f = 1 \/ f = -1) ->
    chain (e * x + f * (2 ^ s * y) :: vals).

Definition steps (vals : list Z) : nat := (length vals - 1)%nat.

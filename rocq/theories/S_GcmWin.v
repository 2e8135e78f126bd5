(** Specification for C99's interactive game, continued: the probability over all permutations that one attempt is accepted. *)
From Coq Require Import ZArith List.
From Verif Require Import Base S_GcmPrp S_GcmAuth S_GcmGame.
From mathcomp Require Import all_ssreflect all_fingroup all_algebra.

Definition pr_win (b : build) (P : player) (n : nat) : rat :=
  (#|[set g : {perm block} | won (play b (as_cipher g) P n)]|%:R / #|{perm block}|%:R)%R.

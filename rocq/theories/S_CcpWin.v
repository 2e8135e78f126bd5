(** Specification for C95's interactive game, continued: the probability over all sources of blocks that one attempt is accepted. *)
From Coq Require Import ZArith List.
From Verif Require Import Base T_CcpPrivacy S_GcmPrp S_CcpAuth S_CcpForge S_CcpGame.
From mathcomp Require Import all_ssreflect all_fingroup all_algebra.

Definition pr_win (P : player) (n : nat) : rat :=
  (#|[set g : {ffun block -> oblock} | won (play (as_blocks g) P n)]|%:R / #|{ffun block -> oblock}|%:R)%R.

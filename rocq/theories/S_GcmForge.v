(** Specification for the forgery half of C99, continued: the probability over all permutations. *)
From Coq Require Import ZArith List.
From Verif Require Import Base M_Gcm T_GcmPrivacy S_GcmPrp S_GcmAuth.
From mathcomp Require Import all_ssreflect all_fingroup all_algebra.

(** The fraction of all permutations of the blocks for which, after [n] queries of [A], one of the attempts of [F] is accepted. *)
Definition pr_forge (b : build) (A : attacker) (F : forger) (n : nat) : rat :=
  (#|[set g : {perm block} | existsb (accepted b (as_cipher g)) (F (lr_run b true A (as_cipher g) n))]|%:R / #|{perm block}|%:R)%R.

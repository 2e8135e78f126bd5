(** Specification for C95's forgery bound, continued: the probability over all sources of blocks. *)
From Coq Require Import ZArith List.
From Verif Require Import Base S_GcmPrp T_CcpPrivacy S_CcpAuth.
From mathcomp Require Import all_ssreflect all_fingroup all_algebra.
Import ListNotations.

(** The type of ChaCha20's output blocks: 64 bytes.  An input is the counter and the nonce, sixteen bytes ([block]). *)
Definition oblock : finType := [finType of 64.-tuple 'I_256].
Definition obytes_of (y : oblock) : list Z := List.map (fun i : 'I_256 => Z.of_nat i) y.
Definition as_blocks (g : block -> oblock) : blocks := fun c nonce => obytes_of (g (block_of (app (le_encode 4 c) nonce))).

(** The fraction of all functions from inputs to output blocks for which, after [n] queries of [A], one of the attempts of [G] is accepted. *)
Definition pr_forge (A : attacker) (G : forger) (n : nat) : rat :=
  (#|[set g : {ffun block -> oblock} | existsb (accepted (as_blocks g)) (G (lr_run (seal the_mac (as_blocks g)) true A n))]|%:R
   / #|{ffun block -> oblock}|%:R)%R.

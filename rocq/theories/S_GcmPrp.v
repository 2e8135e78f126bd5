(** Specification for C99: what a distinguisher learns from GCM when the block cipher is a uniformly random permutation.
    The counting uses mathcomp's finite types. *)
From Coq Require Import ZArith List.
From Verif Require Import Base M_Gcm T_GcmPrivacy.
From mathcomp Require Import all_ssreflect all_fingroup all_algebra.
Import ListNotations.

(** The type of blocks: sixteen bytes; it has 256^16 = 2^128 elements. *)
Definition block : finType := [finType of 16.-tuple 'I_256].
Definition bytes_of (x : block) : list Z := List.map (fun i : 'I_256 => Z.of_nat i) x.
Definition block_of (l : list Z) : block := [tuple inord (Z.to_nat (List.nth i l Z0)) | i < 16].
(** A function on blocks as the [permute] of a block cipher. *)
Definition as_cipher (g : block -> block) (l : list Z) : list Z := bytes_of (g (block_of l)).

(** The fraction of all permutations of the blocks for which the distinguisher [D], given the answers to the [n] queries of
    [A] about the left (right) messages, says yes. *)
Definition pr_yes (b : build) (left : bool) (A : attacker) (D : list reply -> bool) (n : nat) : rat :=
  (#|[set g : {perm block} | D (lr_run b left A (as_cipher g) n)]|%:R / #|{perm block}|%:R)%R.

(** The number of blocks enciphered for the first [n] queries, when the answers are [tr]: one for the hash key, and for each
    query one for the tag and one for each begun block of sixteen bytes of the message. *)
Fixpoint blocks_used (A : attacker) (tr : list reply) (n : nat) : nat :=
  match n with
  | O => 1
  | S n => Nat.add (blocks_used A tr n) (S (Nat.div (Nat.add (length (q_left (A (firstn n tr)))) 15) 16))
  end.

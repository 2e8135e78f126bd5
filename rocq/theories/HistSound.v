(** What it means that a type never returns a wrong digest through the trait [HashFunction] of sha2.rs:6-17, whatever the lengths. *)
From Verif Require Import Base M_Sha2 Hist.

(** In build [b]: if, after any sequence of [update] calls that all return, [write_digest] into a buffer of [DIGEST_SIZE] bytes returns, then
    it leaves [hash] of the concatenation there; digests are [DIGEST_SIZE] bytes long.  Nothing is said about calls that panic. *)
Definition never_wrong (H : HashFunction) (b : build) (hash : list Z -> list Z) : Prop :=
  (forall inputs s out d, Forall bytes inputs -> hash_updates H b (hdefault H) inputs = Ok s ->
     length out = DIGEST_SIZE H -> hwrite_digest H b s out = Ok d -> d = hash (concat inputs)) /\
  (forall m, bytes m -> length (hash m) = DIGEST_SIZE H /\ bytes (hash m)).

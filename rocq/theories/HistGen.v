(** What it means for a type to implement a hash function through the trait [HashFunction] of sha2.rs:6-17. *)
From Verif Require Import Base M_Sha2 Hist.

(** [H] computes [hash] on all messages shorter than [lim] bytes, in build [b]: however the message is cut into [update]
    calls none of them panics, and [write_digest] into a buffer of [DIGEST_SIZE] bytes leaves [hash] of the concatenation
    there; digests are [DIGEST_SIZE] bytes long. *)
Definition implements (H : HashFunction) (b : build) (lim : Z) (hash : list Z -> list Z) : Prop :=
  (forall inputs, Forall bytes inputs -> len (concat inputs) < lim ->
     exists s, hash_updates H b (hdefault H) inputs = Ok s /\
       forall out, length out = DIGEST_SIZE H -> hwrite_digest H b s out = Ok (hash (concat inputs))) /\
  (forall m, bytes m -> length (hash m) = DIGEST_SIZE H /\ bytes (hash m)).

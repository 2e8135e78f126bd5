(** Specification for C95's advantages: ChaCha20-Poly1305 with a random key, and with random blocks. *)
From Coq Require Import ZArith List.
From Verif Require Import Base M_Poly1305 S_GcmPrp T_CcpPrivacy S_CcpAuth S_CcpForge.
From mathcomp Require Import all_ssreflect all_fingroup all_algebra.
Import ListNotations.

(** Keys: 32 bytes. *)
Definition ckey : finType := [finType of 32.-tuple 'I_256].
Definition ckey_bytes (k : ckey) : list Z := List.map (fun i : 'I_256 => Z.of_nat i) k.
(** The answers of [encrypt] and [decrypt] under a key (a panic counts as the empty answer, and as a rejection). *)
Definition ccp_answer (b : build) (key nonce data msg : list Z) : list Z * list Z :=
  match ccp_encrypt b key msg nonce data (List.map (fun=> Z0) msg) with Ok r => r | Panic => (nil, nil) end.
Definition ccp_accepts (b : build) (key : list Z) (a : attempt) : bool :=
  match ccp_decrypt b key (a_ct a) (a_nonce a) (a_data a) (a_tag a) (List.map (fun=> Z0) (a_ct a)) with Ok (_, r) => r | Panic => false end.

(** The fraction of all keys, of all sources of blocks, for which the distinguisher [D], given the answers to the [n] queries of [A]
    about the left (right) messages, says yes. *)
Definition ccp_yes (b : build) (left : bool) (A : attacker) (D : list (list Z * list Z) -> bool) (n : nat) : rat :=
  (#|[set k : ckey | D (lr_run (ccp_answer b (ckey_bytes k)) left A n)]|%:R / #|ckey|%:R)%R.
Definition pr_yes (left : bool) (A : attacker) (D : list (list Z * list Z) -> bool) (n : nat) : rat :=
  (#|[set g : {ffun block -> oblock} | D (lr_run (seal the_mac (as_blocks g)) left A n)]|%:R / #|{ffun block -> oblock}|%:R)%R.
(** The fraction of all keys for which one of the attempts of [G] is accepted by [decrypt]. *)
Definition ccp_forge (b : build) (A : attacker) (G : forger) (n : nat) : rat :=
  (#|[set k : ckey | existsb (ccp_accepts b (ckey_bytes k)) (G (lr_run (ccp_answer b (ckey_bytes k)) true A n))]|%:R / #|ckey|%:R)%R.

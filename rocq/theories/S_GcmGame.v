(** Specification for C99's interactive game: a player asks for encryptions and tries forgeries in any order, seeing every answer. *)
From Verif Require Import Base M_Gcm S_Gcm T_Gcm T_Forge T_GcmPrivacy S_GcmAuth.

Inductive move := Encrypt (nonce data msg : list Z) | Decrypt (a : attempt).
Inductive event := Answer (r : reply) | Verdict (ok : bool).
Definition player : Type := list event -> move.
(** [encrypt] and [decrypt] of GCM with the block function [f]. *)
Definition respond (b : build) (f : list Z -> list Z) (m : move) : event :=
  match m with
  | Encrypt nonce data msg => Answer (gcm_encrypt ideal b f msg nonce data (repeat 0 (length msg)))
  | Decrypt a => Verdict (accepted b f a)
  end.
(** The first [n] events. *)
Fixpoint play (b : build) (f : list Z -> list Z) (P : player) (n : nat) : list event :=
  match n with
  | O => []
  | S n => play b f P n ++ [respond b f (P (play b f P n))]
  end.
Definition won (tr : list event) : bool := existsb (fun e => match e with Verdict true => true | _ => false end) tr.

(** The nonce was not used for an encryption before; the attempt was the answer to an encryption before. *)
Definition fresh (P : player) (tr : list event) (nonce : list Z) : Prop :=
  forall i n d m, (i < length tr)%nat -> P (firstn i tr) = Encrypt n d m -> n <> nonce.
Definition given (P : player) (tr : list event) (a : attempt) : Prop :=
  exists i m, (i < length tr)%nat /\ P (firstn i tr) = Encrypt (a_nonce a) (a_data a) m /\ nth_error tr i = Some (Answer (Ok (a_ct a, a_tag a))).
Definition is_try (m : move) : bool := match m with Decrypt _ => true | _ => false end.
(** [n] moves within the limits, of which at most [m] are attempts; no attempt and no message has more than [B] blocks to hash. *)
Definition player_ok (b : build) (n m : nat) (B : Z) (P : player) : Prop :=
  (forall tr, (length tr < n)%nat ->
     match P tr with
     | Encrypt nonce data msg => gcm_nonce nonce /\ gcm_data data /\ gcm_message msg /\ (b = Unchecked \/ len msg <= checked_limit) /\
         hash_blocks data msg <= B /\ fresh P tr nonce
     | Decrypt a => gcm_nonce (a_nonce a) /\ gcm_data (a_data a) /\ gcm_message (a_ct a) /\
         hash_blocks (a_data a) (a_ct a) <= B /\ ~ given P tr a
     end) /\
  (forall tr, length tr = n -> (length (filter (fun i => is_try (P (firstn i tr))) (seq 0 n)) <= m)%nat).
(** The number of blocks enciphered for the first [n] moves: one for the hash key, one for each attempt's tag, and for each
    message one for the tag and one for each begun block of sixteen bytes. *)
Fixpoint blocks_asked (P : player) (tr : list event) (n : nat) : nat :=
  match n with
  | O => 1
  | S n => blocks_asked P tr n + match P (firstn n tr) with Encrypt _ _ msg => S ((length msg + 15) / 16) | Decrypt _ => 1 end
  end.

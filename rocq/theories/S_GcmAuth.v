(** Specification for the forgery half of C99: an attacker sees encryptions under nonces of its choice, then hands in a list of
    attempts to have something else accepted. *)
From Verif Require Import Base M_Gcm S_Gcm T_Gcm T_Forge T_GcmPrivacy.

(** What is handed to [decrypt]. *)
Record attempt := { a_nonce : list Z; a_data : list Z; a_ct : list Z; a_tag : list Z }.
(** [decrypt] accepts it. *)
Definition accepted (b : build) (f : list Z -> list Z) (a : attempt) : bool :=
  match gcm_decrypt ideal b f (a_ct a) (a_nonce a) (a_data a) (a_tag a) (repeat 0 (length (a_ct a))) with
  | Ok (_, ok) => ok
  | Panic => false
  end.
(** It is an answer the attacker was given, under the same nonce and data. *)
Definition replayed (A : attacker) (tr : list reply) (a : attempt) : Prop :=
  exists i, (i < length tr)%nat /\ nth i tr Panic = Ok (a_ct a, a_tag a) /\
    q_nonce (A (firstn i tr)) = a_nonce a /\ q_data (A (firstn i tr)) = a_data a.
(** The attempts, chosen from the answers. *)
Definition forger : Type := list reply -> list attempt.
(** At most [m] attempts, none of them a replay, all within the limits; and no attempt and no query has more than [B] blocks to hash. *)
Definition forger_ok (b : build) (n m : nat) (B : Z) (A : attacker) (F : forger) : Prop :=
  (forall tr, (length tr < n)%nat -> let q := A tr in
     hash_blocks (q_data q) (q_left q) <= B /\ (b = Unchecked \/ len (q_left q) <= checked_limit)) /\
  (forall tr, length tr = n -> (length (F tr) <= m)%nat /\
     forall a, In a (F tr) -> gcm_nonce (a_nonce a) /\ gcm_data (a_data a) /\ gcm_message (a_ct a) /\
       hash_blocks (a_data a) (a_ct a) <= B /\ ~ replayed A tr a).

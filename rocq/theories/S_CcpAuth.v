(** Specification for C95's forgery bound: an attacker sees encryptions under blocks [F], then hands in attempts. *)
From Verif Require Import Base M_Poly1305 S_ChaCha T_Ccp T_Forge T_CcpPrivacy.

(** What is handed to [decrypt], and that its tag is the one of the blocks [F]. *)
Record attempt := { a_nonce : list Z; a_data : list Z; a_ct : list Z; a_tag : list Z }.
Definition accepted (F : blocks) (a : attempt) : bool :=
  if list_eq_dec Z.eq_dec (a_tag a) (the_mac (firstn 32 (F 0 (a_nonce a))) (a_data a) (a_ct a)) then true else false.
(** It is an answer the attacker was given, under the same nonce and data. *)
Definition replayed (A : attacker) (tr : list (list Z * list Z)) (a : attempt) : Prop :=
  exists i, (i < length tr)%nat /\ nth i tr ([], []) = (a_ct a, a_tag a) /\
    q_nonce (A (firstn i tr)) = a_nonce a /\ q_data (A (firstn i tr)) = a_data a.
(** The attempts, chosen from the answers. *)
Definition forger : Type := list (list Z * list Z) -> list attempt.
(** At most [m] attempts, none of them a replay, all within the limits; no attempt and no query has more than [B] blocks for Poly1305. *)
Definition forger_ok (n m : nat) (B : Z) (A : attacker) (G : forger) : Prop :=
  (forall tr, (length tr < n)%nat -> hash_blocks (q_data (A tr)) (q_left (A tr)) <= B) /\
  (forall tr, length tr = n -> (length (G tr) <= m)%nat /\
     forall a, In a (G tr) -> chacha_nonce (a_nonce a) /\ is_slice (a_data a) /\ is_slice (a_ct a) /\
       hash_blocks (a_data a) (a_ct a) <= B /\ ~ replayed A tr a).

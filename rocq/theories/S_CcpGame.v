(** Specification for C95's interactive game: a player asks for encryptions and tries forgeries in any order, seeing every answer. *)
From Verif Require Import Base M_Poly1305 S_ChaCha T_Ccp T_Forge T_CcpPrivacy S_CcpAuth.

Inductive move := Encrypt (nonce data msg : list Z) | Decrypt (a : attempt).
Inductive event := Answer (ct tag : list Z) | Verdict (ok : bool).
Definition player : Type := list event -> move.
Definition respond (F : blocks) (m : move) : event :=
  match m with
  | Encrypt nonce data msg => let '(c, t) := seal the_mac F nonce data msg in Answer c t
  | Decrypt a => Verdict (accepted F a)
  end.
(** The first [n] events. *)
Fixpoint play (F : blocks) (P : player) (n : nat) : list event :=
  match n with
  | O => []
  | S n => play F P n ++ [respond F (P (play F P n))]
  end.
Definition won (tr : list event) : bool := existsb (fun e => match e with Verdict true => true | _ => false end) tr.

(** The nonce was not used for an encryption before; the attempt was the answer to an encryption before. *)
Definition fresh (P : player) (tr : list event) (nonce : list Z) : Prop :=
  forall i n d m, (i < length tr)%nat -> P (firstn i tr) = Encrypt n d m -> n <> nonce.
Definition given (P : player) (tr : list event) (a : attempt) : Prop :=
  exists i m, (i < length tr)%nat /\ P (firstn i tr) = Encrypt (a_nonce a) (a_data a) m /\ nth_error tr i = Some (Answer (a_ct a) (a_tag a)).
Definition is_try (m : move) : bool := match m with Decrypt _ => true | _ => false end.
(** [n] moves within the limits, of which at most [m] are attempts; no attempt and no message has more than [B] blocks for Poly1305. *)
Definition player_ok (n m : nat) (B : Z) (P : player) : Prop :=
  (forall tr, (length tr < n)%nat ->
     match P tr with
     | Encrypt nonce data msg => chacha_nonce nonce /\ is_slice data /\ is_slice msg /\ len msg <= checked_limit /\
         hash_blocks data msg <= B /\ fresh P tr nonce
     | Decrypt a => chacha_nonce (a_nonce a) /\ is_slice (a_data a) /\ is_slice (a_ct a) /\
         hash_blocks (a_data a) (a_ct a) <= B /\ ~ given P tr a
     end) /\
  (forall tr, length tr = n -> (length (filter (fun i => is_try (P (firstn i tr))) (seq 0 n)) <= m)%nat).

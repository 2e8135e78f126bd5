(** Specification for C95's left-or-right game with decryption: an adversary names two messages per encryption and also has things
    of its own decrypted, in any order, seeing every answer. *)
From Verif Require Import Base M_Poly1305 S_ChaCha T_Ccp T_Forge T_CcpPrivacy S_CcpAuth.

Inductive move := LR (nonce data left right : list Z) | Open (a : attempt).
Inductive event := Sealed (ct tag : list Z) | Opened (r : option (list Z)).
Definition adversary : Type := list event -> move.
(** An encryption of the left (the right) message; the plaintext of what is accepted, or nothing. *)
Definition answer (F : blocks) (left : bool) (v : move) : event :=
  match v with
  | LR nonce data ml mr => let '(c, t) := seal the_mac F nonce data (if left then ml else mr) in Sealed c t
  | Open a => Opened (if accepted F a then Some (fst (seal the_mac F (a_nonce a) (a_data a) (a_ct a))) else None)
  end.
(** The first [n] events. *)
Fixpoint lr_play (F : blocks) (left : bool) (P : adversary) (n : nat) : list event :=
  match n with
  | O => []
  | S n => lr_play F left P n ++ [answer F left (P (lr_play F left P n))]
  end.
(** The nonce was not used for an encryption before; the attempt was the answer to an encryption before. *)
Definition fresh (P : adversary) (tr : list event) (nonce : list Z) : Prop :=
  forall i n d ml mr, (i < length tr)%nat -> P (firstn i tr) = LR n d ml mr -> n <> nonce.
Definition given (P : adversary) (tr : list event) (a : attempt) : Prop :=
  exists i ml mr, (i < length tr)%nat /\ P (firstn i tr) = LR (a_nonce a) (a_data a) ml mr /\ nth_error tr i = Some (Sealed (a_ct a) (a_tag a)).
Definition is_open (v : move) : bool := match v with Open _ => true | _ => false end.
(** [n] moves within the limits, the two messages always of one length, of which at most [m] are decryptions; nothing given is handed
    back; no attempt and no message has more than [B] blocks for Poly1305. *)
Definition adversary_ok (n m : nat) (B : Z) (P : adversary) : Prop :=
  (forall tr, (length tr < n)%nat ->
     match P tr with
     | LR nonce data ml mr => chacha_nonce nonce /\ is_slice data /\ is_slice ml /\ is_slice mr /\ len ml <= checked_limit /\
         length ml = length mr /\ hash_blocks data ml <= B /\ fresh P tr nonce
     | Open a => chacha_nonce (a_nonce a) /\ is_slice (a_data a) /\ is_slice (a_ct a) /\
         hash_blocks (a_data a) (a_ct a) <= B /\ ~ given P tr a
     end) /\
  (forall tr, length tr = n -> (length (filter (fun i => is_open (P (firstn i tr))) (seq 0 n)) <= m)%nat).

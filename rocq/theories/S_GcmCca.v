(** Specification for C99's left-or-right game with decryption: an adversary names two messages per encryption and also has things
    of its own decrypted, in any order, seeing every answer. *)
From Verif Require Import Base M_Gcm S_Gcm T_Gcm T_Forge T_GcmPrivacy S_GcmAuth.

Inductive move := LR (nonce data left right : list Z) | Open (a : attempt).
Inductive event := Sealed (r : reply) | Opened (r : option (list Z)).
Definition adversary : Type := list event -> move.
(** [encrypt] of the left (the right) message; what [decrypt] leaves in the output of what it accepts, or nothing. *)
Definition answer (b : build) (f : list Z -> list Z) (left : bool) (v : move) : event :=
  match v with
  | LR nonce data ml mr =>
    let msg := if left then ml else mr in Sealed (gcm_encrypt ideal b f msg nonce data (repeat 0 (length msg)))
  | Open a => Opened (match gcm_decrypt ideal b f (a_ct a) (a_nonce a) (a_data a) (a_tag a) (repeat 0 (length (a_ct a))) with
                      | Ok (r, true) => Some r
                      | _ => None
                      end)
  end.
(** The first [n] events. *)
Fixpoint lr_play (b : build) (f : list Z -> list Z) (left : bool) (P : adversary) (n : nat) : list event :=
  match n with
  | O => []
  | S n => lr_play b f left P n ++ [answer b f left (P (lr_play b f left P n))]
  end.
(** The nonce was not used for an encryption before; the attempt was the answer to an encryption before. *)
Definition fresh (P : adversary) (tr : list event) (nonce : list Z) : Prop :=
  forall i n d ml mr, (i < length tr)%nat -> P (firstn i tr) = LR n d ml mr -> n <> nonce.
Definition given (P : adversary) (tr : list event) (a : attempt) : Prop :=
  exists i ml mr, (i < length tr)%nat /\ P (firstn i tr) = LR (a_nonce a) (a_data a) ml mr /\ nth_error tr i = Some (Sealed (Ok (a_ct a, a_tag a))).
Definition is_open (v : move) : bool := match v with Open _ => true | _ => false end.
(** [n] moves within the limits, the two messages always of one length, of which at most [m] are decryptions; nothing given is handed
    back; no attempt and no message has more than [B] blocks to hash. *)
Definition adversary_ok (b : build) (n m : nat) (B : Z) (P : adversary) : Prop :=
  (forall tr, (length tr < n)%nat ->
     match P tr with
     | LR nonce data ml mr => gcm_nonce nonce /\ gcm_data data /\ gcm_message ml /\ gcm_message mr /\ length ml = length mr /\
         (b = Unchecked \/ len ml <= checked_limit) /\ hash_blocks data ml <= B /\ fresh P tr nonce
     | Open a => gcm_nonce (a_nonce a) /\ gcm_data (a_data a) /\ gcm_message (a_ct a) /\
         hash_blocks (a_data a) (a_ct a) <= B /\ ~ given P tr a
     end) /\
  (forall tr, length tr = n -> (length (filter (fun i => is_open (P (firstn i tr))) (seq 0 n)) <= m)%nat).
(** The number of blocks enciphered for the first [n] moves when nothing is accepted: one for the hash key, one for each attempt's tag,
    and for each message one for the tag and one for each begun block of sixteen bytes. *)
Fixpoint blocks_asked (P : adversary) (tr : list event) (n : nat) : nat :=
  match n with
  | O => 1
  | S n => blocks_asked P tr n + match P (firstn n tr) with LR _ _ ml _ => S ((length ml + 15) / 16) | Open _ => 1 end
  end.

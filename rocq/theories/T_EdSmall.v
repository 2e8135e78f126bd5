(** C83: Ed25519 public keys of small order. *)
From Verif Require Import Base M_Ed25519 S_Field S_Edwards S_Ed25519.
From Verif Require BaseFacts P_EdSmall P_EdNonCanon P_EdDecode P_Edwards P_Ed25519 T_Ed25519.

(** The two y-coordinates of the points of order 8. *)
Definition order8_y : Z := 2707385501144840649318225287225658788936804267575313519463743609750303402022.
(** The numbers of the 14 strings: y = 0, 1, -1 or one of the two above, y + p where that is below 2^255, and either sign bit. *)
Definition small_order_ys : list Z := [0; p; 1; p + 1; p - 1; order8_y; p - order8_y].
Definition small_order : list Z := small_order_ys ++ map (fun y => 2 ^ 255 + y) small_order_ys.
Lemma small_order_eq : small_order = P_EdSmall.low_keys. Proof. vm_compute. reflexivity. Qed.

(** C83: the strings that decode (as the code decodes) to a point of order dividing 8 are exactly these 14. *)
Theorem C83_small_order_strings : forall s, length s = 32%nat -> bytes s ->
  ((exists A, lax_decodes s A /\ ed_mul 8 A = ed_zero) <-> In s (map (le_encode 32) small_order)).
Proof. intros s Hl Hb. rewrite small_order_eq. exact (P_EdSmall.low_iff s Hl Hb). Qed.
Print Assumptions C83_small_order_strings.

(** For each of the 14, what [verify] accepts depends on the message only through the hash k reduced modulo L and then modulo 8:
    with k of the same residue, every message is accepted with the same signature, and for each S there are at most eight R. *)
Theorem C83_verify_small_order : forall pk, In pk (map (le_encode 32) small_order) ->
  exists A, lax_decodes pk A /\ ed_mul 8 A = ed_zero /\
  forall b message sig, bytes sig -> bytes message -> len message < 2 ^ 61 - 64 ->
  (ed_verify b message sig pk = Ok true <->
   length sig = 64%nat /\ le_decode (skipn 32 sig) < 2 ^ 253 /\
   firstn 32 sig = ed_encode (ed_add (ed_mul (le_decode (skipn 32 sig)) ed_B)
     (ed_opp (ed_mul ((le_decode (H512 (firstn 32 sig ++ pk ++ message)) mod L) mod 8) A)))).
Proof.
  intros pk I.
  assert (Hl : length pk = 32%nat) by (apply in_map_iff in I; destruct I as (n & <- & _); apply BaseFacts.le_encode_length).
  assert (Hb : bytes pk) by (apply in_map_iff in I; destruct I as (n & <- & _); apply BaseFacts.le_encode_bytes).
  destruct (proj2 (C83_small_order_strings pk Hl Hb) I) as (A & LA & H8). exists A. split; [exact LA|]. split; [exact H8|].
  intros b m sig Bs Hm Lm. rewrite (proj1 (T_Ed25519.C48_verify b m sig pk Hl Hb Bs Hm Lm)).
  exact (P_EdSmall.low_verifies m sig pk A Hb LA H8).
Qed.
Print Assumptions C83_verify_small_order.
(** So a signature accepted for one message is accepted for every message whose hash falls in the same residue class. *)
Theorem C83_messages_share : forall pk b message message' sig, In pk (map (le_encode 32) small_order) ->
  bytes sig -> bytes message -> bytes message' -> len message < 2 ^ 61 - 64 -> len message' < 2 ^ 61 - 64 ->
  (le_decode (H512 (firstn 32 sig ++ pk ++ message)) mod L) mod 8 = (le_decode (H512 (firstn 32 sig ++ pk ++ message')) mod L) mod 8 ->
  ed_verify b message sig pk = Ok true -> ed_verify b message' sig pk = Ok true.
Proof.
  intros pk b m m' sig I Bs Hm Hm' Lm Lm' E V. destruct (C83_verify_small_order pk I) as (A & _ & _ & G).
  apply (G b m sig Bs Hm Lm) in V. apply (G b m' sig Bs Hm' Lm'). rewrite <- E. exact V.
Qed.
Print Assumptions C83_messages_share.
(** With the four strings of the neutral element (y = 1), anyone can sign anything: for every S below 2^253 the string
    enc([S]B), S is accepted for every message. *)
Theorem C83_neutral_key_accepts : forall y b message S,
  In y [1; p + 1; 2 ^ 255 + 1; 2 ^ 255 + (p + 1)] -> bytes message -> len message < 2 ^ 61 - 64 -> 0 <= S < 2 ^ 253 ->
  ed_verify b message (ed_encode (ed_mul S ed_B) ++ le_encode 32 S) (le_encode 32 y) = Ok true.
Proof.
  intros y b m S I Hm Lm HS.
  assert (Hl : length (le_encode 32 y) = 32%nat) by apply BaseFacts.le_encode_length.
  assert (Hb : bytes (le_encode 32 y)) by apply BaseFacts.le_encode_bytes.
  assert (Bs : bytes (ed_encode (ed_mul S ed_B) ++ le_encode 32 S)).
  { apply BaseFacts.bytes_app; split; [apply P_Ed25519.enc_bytes|apply BaseFacts.le_encode_bytes]. }
  apply (proj1 (T_Ed25519.C48_verify b m _ (le_encode 32 y) Hl Hb Bs Hm Lm)).
  assert (LA : lax_decodes (le_encode 32 y) ed_zero).
  { apply (P_Ed25519.lax_identity _ Hl). rewrite BaseFacts.le_decode_encode. destruct I as [<-|[<-|[<-|[<-|[] ] ] ] ]; vm_compute; reflexivity. }
  pose proof (P_Ed25519.enc_length (ed_mul S ed_B)) as LR.
  split; [rewrite app_length, LR, BaseFacts.le_encode_length; reflexivity|]. exists ed_zero. cbv zeta.
  rewrite (P_Ed25519.firstn_app_eq 32 _ (le_encode 32 S) LR), (P_Ed25519.skipn_app_eq 32 _ (le_encode 32 S) LR), (P_Ed25519.dec_enc32 S) by (clear -HS; lia).
  split; [exact LA|]. split; [apply HS|]. generalize (le_decode (H512 (ed_encode (ed_mul S ed_B) ++ le_encode 32 y ++ m)) mod L). intros k.
  exact (f_equal ed_encode (P_EdSmall.sub_zero (ed_mul S ed_B) k)).
Qed.
Print Assumptions C83_neutral_key_accepts.
(** None of the 14 is ever produced by [gen_pk]. *)
Theorem C83_gen_pk_not_small_order : forall b secret_key pk, length secret_key = 32%nat -> bytes secret_key ->
  ed_gen_pk b secret_key = Ok pk -> ~ In pk (map (le_encode 32) small_order).
Proof.
  intros b sk pk Hl Hb E. rewrite (T_Ed25519.C45_gen_pk b sk Hl Hb) in E. injection E as <-. rewrite small_order_eq.
  exact (P_EdSmall.pk_not_low sk).
Qed.
Print Assumptions C83_gen_pk_not_small_order.
(** The 14 numbers are distinct and below 2^256; six of them are not RFC 8032 encodings (C70). *)
Example C83_ex : NoDup small_order /\ length small_order = 14%nat /\ forallb (fun n => andb (0 <=? n) (n <? 2 ^ 256)) small_order = true.
Proof.
  split; [|split; [reflexivity|vm_compute; reflexivity] ].
  assert (F : (fix nd (l : list Z) := match l with [] => true | x :: t => andb (negb (existsb (Z.eqb x) t)) (nd t) end) small_order = true)
    by (vm_compute; reflexivity).
  revert F. generalize small_order. induction l as [|x l IH]; intros F; constructor.
  - apply andb_prop in F. destruct F as [F _]. apply Bool.negb_true_iff in F. intros I.
    assert (T : existsb (Z.eqb x) l = true) by (apply existsb_exists; exists x; split; [exact I|apply Z.eqb_refl]).
    rewrite T in F. discriminate F.
  - apply andb_prop in F. exact (IH (proj2 F)).
Qed.
Example C83_ex2 : exists sk, length sk = 32%nat /\ ~ In (rfc_public_key sk) (map (le_encode 32) small_order).
Proof. exists (repeat 0 32). split; [reflexivity|]. rewrite small_order_eq. exact (P_EdSmall.pk_not_low _). Qed.

(** C94: an Ed25519 signature reveals no more of the key than the public key does, given its challenge. *)
From Coq Require Import String Znumtheory.
From Verif Require Import Base Hex M_Curve25519 M_Ed25519 S_Field S_Edwards S_X25519 S_Ed25519.
From Verif Require P_Ed25519 P_EdOrder P_Edwards BaseFacts T_Ed25519 T_EdOrder T_EdExtract.
Local Opaque ed_mul ed_add ed_B ed_zero ed_opp ed_encode H512.
Import T_EdExtract(challenge, sig_S, scalar).

(** A signature-shaped string computed without any secret: from the point [A] of the public key, a challenge [c] and an answer [s]. *)
Definition simulate (A : point) (c s : Z) : list Z :=
  ed_encode (ed_add (ed_mul s ed_B) (ed_opp (ed_mul c A))) ++ le_encode 32 s.
(** What the holder of the scalar [a] answers to the challenge [c] with the nonce [r]. *)
Definition respond (a c r : Z) : list Z := ed_encode (ed_mul r ed_B) ++ le_encode 32 ((r + c * a) mod L).

Lemma sim_point a c s : ed_add (ed_mul s ed_B) (ed_opp (ed_mul c (ed_mul a ed_B))) = ed_mul (s - c * a) ed_B.
Proof.
  rewrite (P_Edwards.ed_mul_mul _ _ ed_B P_Edwards.on_curve_B), <- P_Edwards.ed_mul_opp, <- (P_Edwards.ed_mul_add _ _ ed_B P_Edwards.on_curve_B).
  reflexivity.
Qed.
Lemma respond_sim a c r : respond a c r = simulate (ed_mul a ed_B) c ((r + c * a) mod L).
Proof.
  unfold respond, simulate. rewrite sim_point. f_equal. f_equal. apply P_EdOrder.mulB_inj. clear.
  rewrite Zminus_mod, Z.mod_mod, <- Zminus_mod by discriminate. replace (r + c * a - c * a) with r by ring. reflexivity.
Qed.

(** The public key determines the point; [sign] answers the challenge of its own signature; its answers are among the simulated
    ones; for a fixed challenge the nonces correspond one to one to the answers; and every simulated string is accepted for the
    messages whose challenge it is. *)
Theorem C94_signatures_can_be_simulated : forall bp secret_key pk,
  length secret_key = 32%nat -> bytes secret_key -> ed_gen_pk bp secret_key = Ok pk ->
  exists A, rfc_decodes pk A /\ (forall A', rfc_decodes pk A' -> A' = A) /\
    (forall c r, respond (scalar secret_key) c r = simulate A c ((r + c * scalar secret_key) mod L)) /\
    (forall c s, 0 <= s < L -> exists r, 0 <= r < L /\ (r + c * scalar secret_key) mod L = s /\
       forall r', 0 <= r' < L -> (r' + c * scalar secret_key) mod L = s -> r' = r) /\
    (forall b message sig, bytes message -> len message < 2 ^ 61 - 64 -> ed_sign b message secret_key = Ok sig ->
       let c := challenge sig pk message in
       (exists r, sig = respond (scalar secret_key) c r) /\ sig = simulate A c (sig_S sig)) /\
    (forall b message c s, bytes message -> len message < 2 ^ 61 - 64 -> 0 <= s < L ->
       challenge (simulate A c s) pk message mod L = c mod L ->
       ed_verify b message (simulate A c s) pk = Ok true).
Proof.
  intros bp sk pk Ls Bs Hpk. pose proof Hpk as Hpk0.
  rewrite (T_Ed25519.C45_gen_pk bp sk Ls Bs) in Hpk. apply T_EdOrder.ok_inj in Hpk.
  exists (ed_mul (scalar sk) ed_B).
  split; [rewrite <- Hpk; exact (P_Ed25519.pk_rfc sk)|].
  split; [intros A' HA; rewrite <- Hpk in HA; exact (P_Ed25519.enc_lax_unique _ A' (P_Ed25519.on_curve_mulB _) (P_Ed25519.rfc_lax _ _ HA))|].
  split; [intros c r; apply respond_sim|]. split; [|split].
  - intros c s Hs. set (a := scalar sk). clearbody a. exists ((s - c * a) mod L). split; [apply P_Ed25519.modL_range|]. split.
    + rewrite Z.add_mod, Z.mod_mod, <- Z.add_mod by discriminate. replace (s - c * a + c * a) with s by ring. apply Z.mod_small; exact Hs.
    + intros r Hr E. rewrite <- E, Zminus_mod, Z.mod_mod, <- Zminus_mod by discriminate. replace (r + c * a - c * a) with r by ring. symmetry. apply Z.mod_small; exact Hr.
  - intros b m sig Bm Lm HS. rewrite (T_Ed25519.C46_sign b m sk Ls Bs Bm Lm) in HS. apply T_EdOrder.ok_inj in HS. cbv zeta.
    assert (X : sig = respond (scalar sk) (challenge sig pk m) (le_decode (H512 (ed_prefix sk ++ m)))).
    { unfold challenge. rewrite <- HS, <- Hpk. unfold rfc_sign. cbv zeta.
      rewrite (P_Ed25519.firstn_app_eq 32 _ _ (P_Ed25519.enc_length _)). reflexivity. }
    split; [eexists; exact X|]. set (c := challenge sig pk m) in *. clearbody c. rewrite X. rewrite respond_sim at 1. f_equal.
    unfold sig_S, respond. rewrite (P_Ed25519.skipn_app_eq 32 _ _ (P_Ed25519.enc_length _)). symmetry. apply P_Ed25519.dec_modL.
  - intros b m c s Bm Lm Hs Hc. set (sig := simulate _ c s) in *.
    assert (F1 : firstn 32 sig = ed_encode (ed_mul (s - c * scalar sk) ed_B)).
    { unfold sig, simulate. rewrite sim_point. apply (P_Ed25519.firstn_app_eq 32 _ _ (P_Ed25519.enc_length _)). }
    assert (F2 : sig_S sig = s).
    { unfold sig_S, sig, simulate. rewrite (P_Ed25519.skipn_app_eq 32 _ _ (P_Ed25519.enc_length _)). rewrite <- (Z.mod_small s L Hs). apply P_Ed25519.dec_modL. }
    apply (T_EdExtract.verify_honest b bp m sig sk pk Ls Bs Hpk0); [|exact Bm|exact Lm|].
    + unfold sig, simulate. apply BaseFacts.bytes_app. split; [apply P_Ed25519.enc_bytes|apply BaseFacts.le_encode_bytes].
    + rewrite F1, F2. split; [|split].
      * unfold sig, simulate. rewrite app_length, P_Ed25519.enc_length, BaseFacts.le_encode_length. reflexivity.
      * pose proof P_Ed25519.L_bounds as B. clear -Hs B. lia.
      * f_equal. apply P_EdOrder.mulB_inj. set (k := challenge sig pk m) in *. set (a := scalar sk). clearbody k a. clear - Hc.
        rewrite (Zminus_mod s (c * a)), (Zminus_mod s (k * a)), (Z.mul_mod c a), (Z.mul_mod k a), Hc by discriminate. reflexivity.
Qed.
Print Assumptions C94_signatures_can_be_simulated.

(** For the key of 32 bytes 7: [sign] succeeds, so the fifth part speaks about an actual signature, and the sixth accepts it. *)
Example C94_ex : exists pk sig A, ed_gen_pk Checked (repeat 7 32) = Ok pk /\ ed_sign Checked [1] (repeat 7 32) = Ok sig /\ rfc_decodes pk A /\ sig = simulate A (challenge sig pk [1]) (sig_S sig) /\ ed_verify Checked [1] sig pk = Ok true.
Proof.
  assert (Ls : length (repeat 7 32) = 32%nat) by reflexivity. assert (Bs : bytes (repeat 7 32)) by now apply BaseFacts.bytesb_spec.
  assert (Bm : bytes [1]) by now apply BaseFacts.bytesb_spec. assert (Lm : len [1] < 2 ^ 61 - 64) by reflexivity.
  destruct (T_Ed25519.C47_sign_verify Checked Checked Checked [1] (repeat 7 32)) as (sig & pk & S & P & V); try assumption.
  destruct (C94_signatures_can_be_simulated Checked (repeat 7 32) pk Ls Bs P) as (A & D & _ & _ & _ & H & _).
  exists pk, sig, A. split; [exact P|]. split; [exact S|]. split; [exact D|]. split; [|exact V].
  exact (proj2 (H Checked [1] sig Bm Lm S)).
Qed.

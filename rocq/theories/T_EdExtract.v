(** C92: an Ed25519 signature is a proof of knowledge of the secret scalar. *)
From Coq Require Import String Znumtheory.
From Verif Require Import Base Hex M_Curve25519 M_Ed25519 S_Field S_Edwards S_X25519 S_Ed25519.
From Verif Require P_Ed25519 P_EdOrder P_EdBind P_PrimeL P_Prime P_Edwards BaseFacts T_Ed25519 T_EdOrder.
Local Opaque ed_mul ed_add ed_B ed_zero ed_opp ed_encode H512.

(** The challenge of a signature (RFC 8032, 5.1.7), as a number. *)
Definition challenge (sig pk message : list Z) : Z := le_decode (H512 (firstn 32 sig ++ pk ++ message)).
Definition sig_S (sig : list Z) : Z := le_decode (skipn 32 sig).
(** The secret scalar of a key (5.1.5). *)
Definition scalar (secret_key : list Z) : Z := decode_scalar (firstn 32 (H512 secret_key)).

Lemma combine_mulB S k a : ed_add (ed_mul S ed_B) (ed_opp (ed_mul (k mod L) (ed_mul a ed_B))) = ed_mul (S - k * a) ed_B.
Proof.
  rewrite (P_Edwards.ed_mul_mul _ _ ed_B P_Edwards.on_curve_B), <- P_Edwards.ed_mul_opp, <- (P_Edwards.ed_mul_add _ _ ed_B P_Edwards.on_curve_B).
  apply P_EdOrder.mulB_inj. clear. change (S + - (k mod L * a)) with (S - (k mod L * a)).
  rewrite Zminus_mod, (Z.mul_mod (k mod L)), Z.mod_mod, <- Z.mul_mod, <- Zminus_mod by discriminate. exact eq_refl.
Qed.
Lemma ref10_honest m sig sk : ref10_verifies m sig (rfc_public_key sk) <->
  length sig = 64%nat /\ sig_S sig < 2 ^ 253 /\
  firstn 32 sig = ed_encode (ed_mul (sig_S sig - challenge sig (rfc_public_key sk) m * scalar sk) ed_B).
Proof.
  unfold ref10_verifies. cbv zeta. fold (sig_S sig). fold (challenge sig (rfc_public_key sk) m). split.
  - intros (Hl & A & LA & Hs & HE). split; [exact Hl|]. split; [exact Hs|]. rewrite <- HE. apply f_equal.
    rewrite (P_Ed25519.enc_lax_unique _ A (P_Ed25519.on_curve_mulB _) LA). fold (scalar sk). apply combine_mulB.
  - intros (Hl & Hs & HE). split; [exact Hl|]. exists (ed_mul (ed_secret_scalar sk) ed_B).
    split; [exact (P_Ed25519.rfc_lax _ _ (P_Ed25519.pk_rfc sk))|]. split; [exact Hs|]. rewrite HE. apply f_equal.
    change (ed_secret_scalar sk) with (scalar sk). apply combine_mulB.
Qed.
Lemma verify_honest b bp message sig sk pk : length sk = 32%nat -> bytes sk -> ed_gen_pk bp sk = Ok pk ->
  bytes sig -> bytes message -> len message < 2 ^ 61 - 64 ->
  (ed_verify b message sig pk = Ok true <->
   length sig = 64%nat /\ sig_S sig < 2 ^ 253 /\ firstn 32 sig = ed_encode (ed_mul (sig_S sig - challenge sig pk message * scalar sk) ed_B)).
Proof.
  intros Ls Bs Hpk Bsig Bm Lm. rewrite (T_Ed25519.C45_gen_pk bp sk Ls Bs) in Hpk. apply T_EdOrder.ok_inj in Hpk. subst pk.
  destruct (T_Ed25519.C48_verify b message sig (rfc_public_key sk) (P_Ed25519.enc_length _) (P_Ed25519.enc_bytes _) Bsig Bm Lm) as [V _].
  exact (iff_trans V (ref10_honest message sig sk)).
Qed.
Lemma encB_inj m n : ed_encode (ed_mul m ed_B) = ed_encode (ed_mul n ed_B) -> m mod L = n mod L.
Proof. intros H. apply P_EdOrder.mulB_inj. exact (P_EdBind.encode_inj _ _ (P_Ed25519.on_curve_mulB _) (P_Ed25519.on_curve_mulB _) H). Qed.

(** Whoever knows the discrete logarithm [r] of the first half of an accepted signature knows the scalar times the challenge. *)
Theorem C92_knowing_r : forall b bp message sig secret_key pk r,
  length secret_key = 32%nat -> bytes secret_key -> ed_gen_pk bp secret_key = Ok pk ->
  bytes sig -> bytes message -> len message < 2 ^ 61 - 64 ->
  ed_verify b message sig pk = Ok true -> firstn 32 sig = ed_encode (ed_mul r ed_B) ->
  (challenge sig pk message * scalar secret_key) mod L = (sig_S sig - r) mod L.
Proof.
  intros b bp m sig sk pk r Ls Bs Hpk Bsig Bm Lm Hv HR.
  apply (verify_honest b bp m sig sk pk Ls Bs Hpk Bsig Bm Lm) in Hv. destruct Hv as (_ & _ & HE).
  rewrite HR in HE. apply encB_inj in HE. set (x := challenge sig pk m * scalar sk) in *. set (S := sig_S sig) in *. clearbody x S. clear - HE.
  rewrite Zminus_mod, HE, <- Zminus_mod. replace (S - (S - x)) with x by ring. reflexivity.
Qed.
Print Assumptions C92_knowing_r.

(** Two accepted signatures with one R and different challenges, however they were made, give the scalar. *)
Theorem C92_two_answers : forall b b' bp message message' sig sig' secret_key pk,
  length secret_key = 32%nat -> bytes secret_key -> ed_gen_pk bp secret_key = Ok pk ->
  bytes sig -> bytes message -> len message < 2 ^ 61 - 64 -> bytes sig' -> bytes message' -> len message' < 2 ^ 61 - 64 ->
  ed_verify b message sig pk = Ok true -> ed_verify b' message' sig' pk = Ok true ->
  firstn 32 sig = firstn 32 sig' ->
  let k := challenge sig pk message in let k' := challenge sig' pk message' in
  k mod L <> k' mod L ->
  scalar secret_key mod L = ((sig_S sig - sig_S sig') * (k - k') ^ (L - 2)) mod L.
Proof.
  intros b b' bp m m' sig sig' sk pk Ls Bs Hpk Bsig Bm Lm Bsig' Bm' Lm' Hv Hv' HR k k' Hk.
  apply (verify_honest b bp m sig sk pk Ls Bs Hpk Bsig Bm Lm) in Hv. destruct Hv as (_ & _ & HE).
  apply (verify_honest b' bp m' sig' sk pk Ls Bs Hpk Bsig' Bm' Lm') in Hv'. destruct Hv' as (_ & _ & HE').
  rewrite HR, HE' in HE. apply encB_inj in HE. fold k in HE. fold k' in HE'. fold k' in HE.
  set (a := scalar sk) in *. set (S := sig_S sig) in *. set (S' := sig_S sig') in *. clearbody k k' a S S'. clear - HE Hk.
  set (d := k - k') in *.
  assert (Nd : ~ (L | d)).
  { intros [c Hc]. apply Hk. replace k with (k' + c * L) by (unfold d in Hc; clear - Hc; lia). apply Z.mod_add. discriminate. }
  assert (E : ((S - S') mod L = (d * a) mod L)).
  { replace (S - S') with ((S - k * a) - (S' - k' * a) + d * a) by (unfold d; clear; ring).
    rewrite Z.add_mod, Zminus_mod, HE, Z.sub_diag by discriminate. rewrite Z.mod_0_l, Z.add_0_l, Z.mod_mod by discriminate. reflexivity. }
  destruct (P_Prime.flt L d P_PrimeL.prime_L Nd) as [c Hc].
  rewrite Z.mul_mod, E, <- Z.mul_mod by discriminate.
  replace (d * a * d ^ (L - 2)) with (a * d ^ (L - 1)).
  2:{ replace (L - 1) with (Z.succ (L - 2)) by (clear; lia). rewrite Z.pow_succ_r by discriminate. clear; ring. }
  rewrite Hc. replace (a * (1 + c * L)) with (a + a * c * L) by (clear; ring). rewrite Z.mod_add by discriminate. reflexivity.
Qed.
Print Assumptions C92_two_answers.

(** And the scalar modulo L is all it takes: with it, every message can be signed with every [r]. *)
Theorem C92_scalar_signs : forall b bp message secret_key pk x r,
  length secret_key = 32%nat -> bytes secret_key -> ed_gen_pk bp secret_key = Ok pk -> bytes message -> len message < 2 ^ 61 - 64 ->
  x mod L = scalar secret_key mod L ->
  let R := ed_encode (ed_mul r ed_B) in
  ed_verify b message (R ++ le_encode 32 ((r + le_decode (H512 (R ++ pk ++ message)) * x) mod L)) pk = Ok true.
Proof.
  intros b bp m sk pk x r Ls Bs Hpk Bm Lm Hx R. set (k := le_decode (H512 (R ++ pk ++ m))).
  assert (LR : length R = 32%nat) by apply P_Ed25519.enc_length.
  assert (F1 : firstn 32 (R ++ le_encode 32 ((r + k * x) mod L)) = R) by (exact (P_Ed25519.firstn_app_eq 32 R _ LR)).
  assert (F2 : sig_S (R ++ le_encode 32 ((r + k * x) mod L)) = (r + k * x) mod L).
  { unfold sig_S. rewrite (P_Ed25519.skipn_app_eq 32 R _ LR). apply P_Ed25519.dec_modL. }
  apply (verify_honest b bp m _ sk pk Ls Bs Hpk); [|exact Bm|exact Lm|].
  - apply BaseFacts.bytes_app. split; [apply P_Ed25519.enc_bytes|apply BaseFacts.le_encode_bytes].
  - rewrite app_length, LR, BaseFacts.le_encode_length. split; [reflexivity|]. unfold challenge. rewrite F1, F2. fold k. split.
    + pose proof (P_Ed25519.modL_range (r + k * x)) as Q. pose proof P_Ed25519.L_bounds as B. clear -Q B. lia.
    + unfold R at 1. apply f_equal. apply P_EdOrder.mulB_inj. set (a := scalar sk) in *. clearbody k a. clear - Hx.
      rewrite Zminus_mod, Z.mod_mod, <- Zminus_mod by discriminate.
      replace (r + k * x - k * a) with (r + k * (x - a)) by ring.
      rewrite Z.add_mod, (Z.mul_mod k), (Zminus_mod x a), Hx, Z.sub_diag by discriminate.
      rewrite Z.mod_0_l, Z.mul_0_r, Z.mod_0_l, Z.add_0_r, Z.mod_mod by discriminate. reflexivity.
Qed.
Print Assumptions C92_scalar_signs.

(** The hypotheses of [C92_two_answers] hold for every key and every [r], once two messages have different challenges: *)
Example C92_ex : forall b secret_key pk r message message',
  length secret_key = 32%nat -> bytes secret_key -> ed_gen_pk b secret_key = Ok pk ->
  bytes message -> len message < 2 ^ 61 - 64 -> bytes message' -> len message' < 2 ^ 61 - 64 ->
  exists sig sig', bytes sig /\ bytes sig' /\ firstn 32 sig = firstn 32 sig' /\ firstn 32 sig = ed_encode (ed_mul r ed_B) /\
    ed_verify b message sig pk = Ok true /\ ed_verify b message' sig' pk = Ok true.
Proof.
  intros b sk pk r m m' Ls Bs Hpk Bm Lm Bm' Lm'.
  pose proof (C92_scalar_signs b b m sk pk (scalar sk) r Ls Bs Hpk Bm Lm eq_refl) as V.
  pose proof (C92_scalar_signs b b m' sk pk (scalar sk) r Ls Bs Hpk Bm' Lm' eq_refl) as V'. cbv zeta in V, V'.
  eexists; eexists. split; [|split; [|split; [|split; [|split; [exact V|exact V'] ] ] ] ].
  1,2: apply BaseFacts.bytes_app; split; [apply P_Ed25519.enc_bytes|apply BaseFacts.le_encode_bytes].
  - rewrite !(P_Ed25519.firstn_app_eq 32 _ _ (P_Ed25519.enc_length _)). reflexivity.
  - apply (P_Ed25519.firstn_app_eq 32 _ _ (P_Ed25519.enc_length _)).
Qed.
(** ... as the messages "" and "a" have for the public key of RFC 8032 test 1 and R = [0]B (a test, not part of the proofs). *)
Goal let R := le_encode 32 1 in let pk := h2b "d75a980182b10ab7d54bfed3c964073a0ee172f3daa62325af021a68f707511a" in
  (challenge R pk [] mod L =? challenge R pk [97] mod L) = false.
Proof. vm_compute. reflexivity. Abort.

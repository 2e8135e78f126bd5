(** Consequences of the RFC 7748 function: ignored bits, points of small order. *)
From Verif Require Import BaseFacts S_Field S_X25519 P_Field.

Lemma decode_scalar_bits k k' : (forall i, 3 <= i < 254 -> Z.testbit (le_decode k) i = Z.testbit (le_decode k') i) ->
  decode_scalar k = decode_scalar k'.
Proof.
  intros H. unfold decode_scalar. f_equal. f_equal. apply Z.bits_inj'. intros n Hn.
  destruct (Z.lt_ge_cases n 251) as [L|L].
  - rewrite !Z.mod_pow2_bits_low by lia. change 8 with (2 ^ 3). rewrite !Z.div_pow2_bits by lia. apply H. lia.
  - rewrite !Z.mod_pow2_bits_high by lia. reflexivity.
Qed.
Lemma decode_u_bits u u' : (forall i, 0 <= i < 255 -> Z.testbit (le_decode u) i = Z.testbit (le_decode u') i) ->
  decode_u u = decode_u u'.
Proof.
  intros H. unfold decode_u. f_equal. apply Z.bits_inj'. intros n Hn.
  destruct (Z.lt_ge_cases n 255) as [L|L].
  - rewrite !Z.mod_pow2_bits_low by lia. apply H. lia.
  - rewrite !Z.mod_pow2_bits_high by lia. reflexivity.
Qed.

Lemma rfc_loop_split u k m n st : (0 <= k) ->
  rfc_loop u k (n + m) st = rfc_loop u k m (rfc_loop u (k / 2 ^ Z.of_nat m) n st).
Proof.
  intros Hk. revert st. induction n as [|n IH]; intros st; cbn [Nat.add rfc_loop]; [reflexivity|].
  rewrite IH. rewrite Z.div_pow2_bits by lia. rewrite Nat2Z.inj_add. reflexivity.
Qed.

Definition step0 (u : F) (a : F * F * F * F) : F * F * F * F :=
  let '(x2, z2, x3, z3) := a in
  fst (rfc_step u false (x2, z2, x3, z3, false)).
Definition flip (a : F * F * F * F) : F * F * F * F := let '(x2, z2, x3, z3) := a in (x3, z3, x2, z2).
Lemma rfc_step_step0 u bit a sw : rfc_step u bit (a, sw) = (step0 u (if xorb sw bit then flip a else a), bit).
Proof. destruct a as [ [ [x2 z2] x3] z3]. destruct sw, bit; reflexivity. Qed.

Lemma rfc_loop_inv (P : F * F * F * F -> Prop) u :
  (forall a, P a -> P (flip a)) -> (forall a, P a -> P (step0 u a)) ->
  forall k n a sw, P a -> P (fst (rfc_loop u k n (a, sw))).
Proof.
  intros Hf Hs k n. induction n as [|n IH]; intros a sw Ha; cbn [rfc_loop]; [exact Ha|].
  rewrite rfc_step_step0. apply IH. apply Hs. destruct (xorb sw _); [now apply Hf|exact Ha].
Qed.

Lemma mul0 x : fmul f0 x = f0. Proof. ring. Qed.
Lemma finv0 : finv f0 = f0. Proof. unfold finv. apply fpow_0_l. reflexivity. Qed.

(** The last three steps of a multiple of eight double three times. *)
Definition zero_after3 (P : F * F * F * F -> Prop) (u : F) : Prop :=
  forall a, P a -> let '(x2, z2, x3, z3) := step0 u (step0 u (step0 u a)) in z2 = f0.

Lemma low_order (P : F * F * F * F -> Prop) u : P (f1, f0, u, f1) ->
  (forall a, P a -> P (flip a)) -> (forall a, P a -> P (step0 u a)) -> zero_after3 P u ->
  forall k, 0 <= k -> k mod 8 = 0 -> x25519_F k u = f0.
Proof.
  intros H0 Hf Hs Hz k Hk H8. unfold x25519_F.
  change 255%nat with (252 + 3)%nat. rewrite rfc_loop_split by exact Hk.
  pose proof (rfc_loop_inv P u Hf Hs (k / 2 ^ Z.of_nat 3) 252 (f1, f0, u, f1) false H0) as HP.
  destruct (rfc_loop u (k / 2 ^ Z.of_nat 3) 252 (f1, f0, u, f1, false)) as [a sw]. cbn [fst] in HP.
  assert (B : forall i, 0 <= i < 3 -> Z.testbit k i = false).
  { intros i Hi. rewrite (Z.div_mod k 8) by lia. rewrite H8, Z.add_0_r. change 8 with (2 ^ 3).
    rewrite Z.mul_comm. apply Z.mul_pow2_bits_low. lia. }
  cbn [rfc_loop]. change (Z.of_nat 2) with 2. change (Z.of_nat 1) with 1. change (Z.of_nat 0) with 0.
  rewrite !B by lia. rewrite !rfc_step_step0. cbn [xorb].
  assert (HP' : P (if xorb sw false then flip a else a)) by (destruct (xorb sw false); auto).
  specialize (Hz _ HP'). destruct (step0 u (step0 u (step0 u _))) as [ [ [x2 z2] x3] z3].
  cbn [cswap]. rewrite Hz, finv0. ring.
Qed.

Definition isO (x z : F) := z = f0.
Definition is0 (x z : F) := x = f0.
Definition isU (u x z : F) := x = fmul u z.

Local Open Scope F_scope.
Lemma low_0 k : (0 <= k)%Z -> (k mod 8 = 0)%Z -> x25519_F k 0 = 0.
Proof.
  apply (low_order (fun '(x2, z2, x3, z3) => isO x2 z2 /\ is0 x3 z3 \/ is0 x2 z2 /\ isO x3 z3)).
  - left. split; reflexivity.
  - intros [ [ [x2 z2] x3] z3]. cbn [flip]. tauto.
  - intros [ [ [x2 z2] x3] z3] [ [H1 H2]|[H1 H2] ]; unfold isO, is0 in *; subst; cbn [step0 rfc_step xorb cswap fst];
      left; split; unfold isO, is0; ring.
  - intros [ [ [x2 z2] x3] z3] [ [H1 H2]|[H1 H2] ]; unfold isO, is0 in *; subst; cbn [step0 rfc_step xorb cswap fst]; ring.
Qed.

Lemma low_u u : u * u = 1 -> forall k, (0 <= k)%Z -> (k mod 8 = 0)%Z -> x25519_F k u = 0.
Proof.
  intros Hu.
  apply (low_order (fun '(x2, z2, x3, z3) => isO x2 z2 /\ isU u x3 z3 \/ isU u x2 z2 /\ isO x3 z3
    \/ is0 x2 z2 /\ isU u x3 z3 \/ isU u x2 z2 /\ is0 x3 z3)).
  - left. split; unfold isO, isU; [reflexivity|ring].
  - intros [ [ [x2 z2] x3] z3]. cbn [flip]. tauto.
  - intros [ [ [x2 z2] x3] z3] [ [H1 H2]|[ [H1 H2]|[ [H1 H2]|[H1 H2] ] ] ]; unfold isO, is0, isU in *; subst; cbn [step0 rfc_step xorb cswap fst].
    + left; split; [ring|ring [Hu]].
    + right; right; left; split; ring [Hu].
    + left; split; ring [Hu].
    + right; right; left; split; ring [Hu].
  - assert (D : forall x2 z2 x3 z3, let '(y, w, _, _) := step0 u (x2, z2, x3, z3) in
      (isO x2 z2 -> isO y w) /\ (is0 x2 z2 -> isO y w) /\ (isU u x2 z2 -> is0 y w)).
    { intros. cbn [step0 rfc_step xorb cswap fst]. unfold isO, is0, isU. repeat split; intros ->; ring [Hu]. }
    intros a Ha.
    assert (Ha' : let '(x2, z2, x3, z3) := a in isO x2 z2 \/ is0 x2 z2 \/ isU u x2 z2).
    { destruct a as [ [ [x2 z2] x3] z3]. tauto. }
    clear Ha. destruct a as [ [ [x2 z2] x3] z3]. pose proof (D x2 z2 x3 z3) as D1.
    destruct (step0 u (x2, z2, x3, z3)) as [ [ [x2' z2'] x3'] z3']. clear x3 z3.
    pose proof (D x2' z2' x3' z3') as D2.
    destruct (step0 u (x2', z2', x3', z3')) as [ [ [x2'' z2''] x3''] z3'']. clear x3' z3'.
    pose proof (D x2'' z2'' x3'' z3'') as D3.
    destruct (step0 u (x2'', z2'', x3'', z3'')) as [ [ [x2t z2t] x3t] z3t]. unfold isO in *. tauto.
Qed.

Lemma decode_scalar_8 k : (0 <= decode_scalar k)%Z /\ (decode_scalar k mod 8 = 0)%Z.
Proof.
  unfold decode_scalar. pose proof (Z.mod_pos_bound (le_decode k / 8) (2 ^ 251) ltac:(lia)). split; [lia|].
  change (2 ^ 254)%Z with (2 ^ 251 * 8)%Z. rewrite Z.mod_add by lia. rewrite Z.mul_comm. apply Z.mod_mul. lia.
Qed.

(** Proofs about util.rs. *)
From Verif Require Import BaseFacts M_Util.
From Coq Require Import ZifyBool ZifyNat.

Lemma verify_inner_spec x y : length x = length y ->
  exists d, verify_inner x y = Ok d /\ (d = 0 <-> x = y).
Proof.
  intros Hl. unfold verify_inner. rewrite assertb_true by (apply Nat.eqb_eq; assumption). cbn [bind].
  eexists; split; [reflexivity|].
  assert (H : forall x y acc, length x = length y ->
    (fold_left (fun acc xy => Z.lor acc (Z.lxor (fst xy) (snd xy))) (combine x y) acc = 0 <-> acc = 0 /\ x = y)).
  { clear. induction x as [|a x IH]; intros [|c y] acc Hl; cbn [length] in Hl; try lia; cbn [combine fold_left].
    - tauto.
    - cbn [fst snd]. rewrite IH by lia. rewrite Z.lor_eq_0_iff, Z.lxor_eq_0_iff. intuition congruence. }
  rewrite H by assumption. tauto.
Qed.

Lemma verify_16_spec x y : exists v, verify_16 x y = Ok v /\ (v = true <-> x = y).
Proof.
  unfold verify_16. destruct (Nat.eqb_spec (length x) (length y)) as [He|He].
  - destruct (verify_inner_spec x y He) as (d & -> & Hd). cbn [bind]. eexists; split; [reflexivity|].
    rewrite Z.eqb_eq. exact Hd.
  - eexists; split; [reflexivity|]. split; [discriminate|]. intros ->. congruence.
Qed.

Lemma verify_16_exact : forall x y : list Z, length x = 16%nat ->
  exists v, verify_16 x y = Ok v /\ (v = true <-> y = x).
Proof.
  intros x y _. destruct (verify_16_spec x y) as (v & E & I). exists v. split; [exact E|].
  rewrite I. split; congruence.
Qed.

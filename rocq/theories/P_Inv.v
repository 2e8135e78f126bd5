(** The two fixed exponentiations: inversion and the square-root candidate. *)
From Verif Require Import BaseFacts M_Slp M_FeProg M_Curve25519 S_Field P_Field P_Slp P_Fe P_FeBytes.

(** [f] holds [z ^ n]. *)
Definition pw (z : F) (n : Z) (f : fe) : Prop := bnd 1 f /\ fv f = fpow z n /\ 0 <= n.

Lemma pw_mul b z m n f g : pw z m f -> pw z n g -> exists h, fe_mul b f g = Ok h /\ pw z (m + n) h.
Proof.
  intros (B1 & V1 & P1) (B2 & V2 & P2).
  destruct (fe_mul_ok b f g) as (h & E & B & V); [eapply bnd_weaken; [|eassumption]; lia..|].
  exists h. split; [exact E|]. split; [exact B|]. split; [|lia]. rewrite V, V1, V2, fpow_add by lia. reflexivity.
Qed.
Lemma pw_sq b z m f : pw z m f -> exists h, fe_sq b f = Ok h /\ pw z (2 * m) h.
Proof.
  intros (B1 & V1 & P1).
  destruct (fe_sq_ok b f) as (h & E & B & V); [eapply bnd_weaken; [|eassumption]; lia..|].
  exists h. split; [exact E|]. split; [exact B|]. split; [|lia].
  replace (2 * m) with (m + m) by lia. rewrite V, V1, fpow_add by lia. reflexivity.
Qed.
Lemma pw_sq_times b z n : forall m f, pw z m f -> exists h, sq_times b n f = Ok h /\ pw z (2 ^ Z.of_nat n * m) h.
Proof.
  induction n as [|n IH]; intros m f H; cbn [sq_times].
  - exists f. split; [reflexivity|]. now rewrite Z.mul_1_l.
  - destruct (pw_sq b _ _ _ H) as (h & -> & Hh). rewrite bind_ok.
    destruct (IH _ _ Hh) as (g & -> & Hg). exists g. split; [reflexivity|].
    replace (2 ^ Z.of_nat (S n) * m) with (2 ^ Z.of_nat n * (2 * m)); [exact Hg|].
    rewrite Nat2Z.inj_succ, Z.pow_succ_r by lia. ring.
Qed.
Lemma pw_sq_many b z n m f : pw z m f -> exists h, square_many b f n = Ok h /\ pw z (2 ^ Z.of_nat (n - 1) * m) h.
Proof. apply pw_sq_times. Qed.

Ltac pw_norm H := match type of H with pw ?z ?n ?f => let n' := eval vm_compute in n in change n with n' in H end.
Ltac pw_step :=
  match goal with
  | Hf : pw ?z ?m ?f, Hg : pw ?z ?n ?g |- context [fe_mul ?b ?f ?g] =>
      let h := fresh "h" in let E := fresh "E" in let H := fresh "W" in
      destruct (pw_mul b z m n f g Hf Hg) as (h & E & H); rewrite E; clear E; pw_norm H
  | Hf : pw ?z ?m ?f |- context [fe_sq ?b ?f] =>
      let h := fresh "h" in let E := fresh "E" in let H := fresh "W" in
      destruct (pw_sq b z m f Hf) as (h & E & H); rewrite E; clear E; pw_norm H
  | Hf : pw ?z ?m ?f |- context [square_many ?b ?f ?n] =>
      let h := fresh "h" in let E := fresh "E" in let H := fresh "W" in
      destruct (pw_sq_many b z n m f Hf) as (h & E & H); rewrite E; clear E; pw_norm H
  end; rewrite ?bind_ok.

Lemma pw_init z : bnd 1 z -> pw (fv z) 1 z.
Proof. intros H. split; [exact H|]. split; [now rewrite fpow_1_r|lia]. Qed.

Lemma fe_invert_ok b z : bnd 1 z -> exists h, fe_invert b z = Ok h /\ bnd 1 h /\ fv h = finv (fv z).
Proof.
  intros Hz. pose proof (pw_init z Hz) as W0. unfold fe_invert.
  repeat pw_step.
  eexists. split; [reflexivity|].
  match goal with |- bnd 1 ?h /\ _ => match goal with H : pw _ _ h |- _ => destruct H as (B & V & _) end end.
  split; [exact B|exact V].
Qed.
Lemma fe_pow22523_ok b z : bnd 1 z ->
  exists h, fe_pow22523 b z = Ok h /\ bnd 1 h /\ fv h = fpow (fv z) ((p - 5) / 8).
Proof.
  intros Hz. pose proof (pw_init z Hz) as W0. unfold fe_pow22523.
  repeat pw_step.
  eexists. split; [reflexivity|].
  match goal with |- bnd 1 ?h /\ _ => match goal with H : pw _ _ h |- _ => destruct H as (B & V & _) end end.
  split; [exact B|exact V].
Qed.
